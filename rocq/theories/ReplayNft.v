(** Unit tests of the nft pallet (nft/src/tests/extrinsics.rs, traits.rs), run against the model.
    Translated mechanically from the Rust text. *)
From Verif Require Import Replay.
Local Open Scope N_scope.

(** nft/src/tests/mock.rs *)
Local Instance mock : Config := {|
  ed := 1; fees_collector := Some 99; zero_lock_clears := false; nft_data_limit := 10; coll_data_limit := 10;
  coll_size_limit := 10; shards_number := 2; init_mint_fee := 10; init_secret_fee := 75;
  init_capsule_fee := 100; init_mkt_fee := 0; mkt_accounts_limit := 0; mkt_data_limit := 0;
  mkt_colls_limit := 0; auction_ed := 1; min_auction_duration := 0; max_auction_duration := 0;
  max_auction_delay := 0; grace_period := 0; ending_period := 0; bidder_limit := 0; parallel_auctions := 0;
  auction_actions := 0; auction_pot := 100; rent_ed := 1; rent_accounts_limit := 0; rent_limit := 0;
  rent_actions := 0; availability_limit := 0; duration_limit := 0; rent_pot := 101; init_at_block_fee := 0;
  init_at_block_reset_fee := 0; init_on_consent_fee := 0; init_on_consent_at_block_fee := 0;
  max_block_duration := 0; consent_limit := 0; trans_limit := 0; trans_actions := 0; cluster_size := 2;
  uri_limit := 12; list_limit := 10; init_staking_amount := 20; bonding_duration := 10; tee_pot := 102;
  init_reward_pool := 2000; history_depth := 50; own_chain := 0; proposal_lifetime := 0;
  init_vote_threshold := 0; relayer_limit := 0; init_bridge_fee := 0; staking_pot := 103;
  external_ok := fun _ => false; hook_order := []
|}.

Definition start_with (l : list (N * N)) : state := init_state 1 None (list_to_map l) ∅.

(** * extrinsics, create_nft *)
Example create_nft : (
  now_ (fun s1 => 
  ok (sg 1) (C_create_nft (offchain_data (mkNft 1 1 [] None 1000000 (mkNftState false false false false false false false false false))) (royalty (mkNft 1 1 [] None 1000000 (mkNftState false false false false false false false false false))) (collection_id (mkNft 1 1 [] None 1000000 (mkNftState false false false false false false false false false))) (is_soulbound (nstate (mkNft 1 1 [] None 1000000 (mkNftState false false false false false false false false false))))) >> 
  now_ (fun s2 => upd (fun s => s <| s_nft ::= fun n => n <| next_nft ::= N.succ |> |>) >> 
  now_ (fun s3 => 
  chk (fun _ => (nfts (s_nft s3) !! ((next_nft (s_nft s2)) - 1)) = (Some (mkNft 1 1 [] None 1000000 (mkNftState false false false false false false false false false)))) >> 
  chk (fun _ => (bal 1 s3) = ((bal 1 s1) - (mint_fee (s_nft s3)))) >> 
  last_ (Ev_NFTCreated ((next_nft (s_nft s2)) - 1) (owner (mkNft 1 1 [] None 1000000 (mkNftState false false false false false false false false false))) (offchain_data (mkNft 1 1 [] None 1000000 (mkNftState false false false false false false false false false))) (royalty (mkNft 1 1 [] None 1000000 (mkNftState false false false false false false false false false))) (collection_id (mkNft 1 1 [] None 1000000 (mkNftState false false false false false false false false false))) (is_soulbound (nstate (mkNft 1 1 [] None 1000000 (mkNftState false false false false false false false false false)))) (mint_fee (s_nft s3))) >> fin))))
  (start_with [(1, 1000)]).
Proof. replay. Qed.
Example create_nft_with_collection : (ok (sg 1) (C_create_nft [] 1000000 None false) >> ok (sg 1) (C_create_collection [] None) >> 
  ok (sg 2) (C_create_nft [] 1000000 None false) >> ok (sg 2) (C_create_collection [] None) >> 
  now_ (fun s1 => chk (fun _ => (if nfts (s_nft s1) !! 0 then true else false) = true) >> 
  chk (fun _ => (if nfts (s_nft s1) !! 1 then true else false) = true) >> 
  chk (fun _ => (if colls (s_nft s1) !! 0 then true else false) = true) >> 
  chk (fun _ => (if colls (s_nft s1) !! 1 then true else false) = true) >> 
  ok (sg 1) (C_create_nft (offchain_data (mkNft 1 1 [] (Some 0) 1000000 (mkNftState false false false false false false false false false))) (royalty (mkNft 1 1 [] (Some 0) 1000000 (mkNftState false false false false false false false false false))) (collection_id (mkNft 1 1 [] (Some 0) 1000000 (mkNftState false false false false false false false false false))) (is_soulbound (nstate (mkNft 1 1 [] (Some 0) 1000000 (mkNftState false false false false false false false false false))))) >> 
  now_ (fun s2 => upd (fun s => s <| s_nft ::= fun n => n <| next_nft ::= N.succ |> |>) >> 
  now_ (fun s3 => 
  chk (fun _ => (nfts (s_nft s3) !! ((next_nft (s_nft s2)) - 1)) = (Some (mkNft 1 1 [] (Some 0) 1000000 (mkNftState false false false false false false false false false)))) >> 
  chk (fun _ => (bal 1 s3) = ((bal 1 s1) - (mint_fee (s_nft s3)))) >> 
  chk (fun _ => (if colls (s_nft s3) !! 0 then true else false) = true) >> 
  chk (fun _ => (existsb (N.eqb ((next_nft (s_nft s2)) - 1)) (c_nfts (default dcoll (colls (s_nft s3) !! 0)))) = true) >> 
  last_ (Ev_NFTCreated ((next_nft (s_nft s2)) - 1) (owner (mkNft 1 1 [] (Some 0) 1000000 (mkNftState false false false false false false false false false))) (offchain_data (mkNft 1 1 [] (Some 0) 1000000 (mkNftState false false false false false false false false false))) (royalty (mkNft 1 1 [] (Some 0) 1000000 (mkNftState false false false false false false false false false))) (collection_id (mkNft 1 1 [] (Some 0) 1000000 (mkNftState false false false false false false false false false))) (is_soulbound (nstate (mkNft 1 1 [] (Some 0) 1000000 (mkNftState false false false false false false false false false)))) (mint_fee (s_nft s3))) >> fin))))
  (start_with [(1, 1000); (2, 1000)]).
Proof. replay. Qed.
Example insufficient_balance : (no (sg 1) (C_create_nft [] 0 None false) (Balances_InsufficientBalance) >> fin)
  (start_with [(1, 1)]).
Proof. replay. Qed.
Example not_the_collection_owner : (ok (sg 1) (C_create_nft [] 1000000 None false) >> ok (sg 1) (C_create_collection [] None) >> 
  ok (sg 2) (C_create_nft [] 1000000 None false) >> ok (sg 2) (C_create_collection [] None) >> 
  now_ (fun s1 => chk (fun _ => (if nfts (s_nft s1) !! 0 then true else false) = true) >> 
  chk (fun _ => (if nfts (s_nft s1) !! 1 then true else false) = true) >> 
  chk (fun _ => (if colls (s_nft s1) !! 0 then true else false) = true) >> 
  chk (fun _ => (if colls (s_nft s1) !! 1 then true else false) = true) >> 
  no (sg 1) (C_create_nft [] 0 (Some 1) false) (Nft_err N_NotTheCollectionOwner) >> fin))
  (start_with [(1, 1000); (2, 1000)]).
Proof. replay. Qed.
Example collection_is_closed : (ok (sg 1) (C_create_nft [] 1000000 None false) >> ok (sg 1) (C_create_collection [] None) >> 
  ok (sg 2) (C_create_nft [] 1000000 None false) >> ok (sg 2) (C_create_collection [] None) >> 
  now_ (fun s1 => chk (fun _ => (if nfts (s_nft s1) !! 0 then true else false) = true) >> 
  chk (fun _ => (if nfts (s_nft s1) !! 1 then true else false) = true) >> 
  chk (fun _ => (if colls (s_nft s1) !! 0 then true else false) = true) >> 
  chk (fun _ => (if colls (s_nft s1) !! 1 then true else false) = true) >> ok (sg 1) (C_close_collection 0) >> 
  no (sg 1) (C_create_nft [] 0 (Some 0) false) (Nft_err N_CollectionIsClosed) >> fin))
  (start_with [(1, 1000); (2, 1000)]).
Proof. replay. Qed.
Example collection_has_reached_max : (ok (sg 1) (C_create_nft [] 1000000 None false) >> ok (sg 1) (C_create_collection [] None) >> 
  ok (sg 2) (C_create_nft [] 1000000 None false) >> ok (sg 2) (C_create_collection [] None) >> 
  now_ (fun s1 => chk (fun _ => (if nfts (s_nft s1) !! 0 then true else false) = true) >> 
  chk (fun _ => (if nfts (s_nft s1) !! 1 then true else false) = true) >> 
  chk (fun _ => (if colls (s_nft s1) !! 0 then true else false) = true) >> 
  chk (fun _ => (if colls (s_nft s1) !! 1 then true else false) = true) >> ok (sg 1) (C_create_nft [] 0 (Some 0) false) >> 
  ok (sg 1) (C_create_nft [] 0 (Some 0) false) >> ok (sg 1) (C_create_nft [] 0 (Some 0) false) >> 
  ok (sg 1) (C_create_nft [] 0 (Some 0) false) >> ok (sg 1) (C_create_nft [] 0 (Some 0) false) >> 
  ok (sg 1) (C_create_nft [] 0 (Some 0) false) >> ok (sg 1) (C_create_nft [] 0 (Some 0) false) >> 
  ok (sg 1) (C_create_nft [] 0 (Some 0) false) >> ok (sg 1) (C_create_nft [] 0 (Some 0) false) >> 
  ok (sg 1) (C_create_nft [] 0 (Some 0) false) >> 
  no (sg 1) (C_create_nft [] 0 (Some 0) false) (Nft_err N_CollectionHasReachedLimit) >> fin))
  (start_with [(1, 1000); (2, 1000)]).
Proof. replay. Qed.
Example collection_has_reached_limit : (ok (sg 1) (C_create_collection [] (Some 1)) >> 
  now_ (fun s1 => upd (fun s => s <| s_nft ::= fun n => n <| next_coll ::= N.succ |> |>) >> 
  ok (sg 1) (C_create_nft [] 0 (Some ((next_coll (s_nft s1)) - 1)) false) >> 
  no (sg 1) (C_create_nft [] 0 (Some ((next_coll (s_nft s1)) - 1)) false) (Nft_err N_CollectionHasReachedLimit) >> fin))
  (start_with [(1, 1000); (2, 1000)]).
Proof. replay. Qed.
Example keep_alive : (ok (sg 1) (C_create_nft [] 1000000 None false) >> ok (sg 1) (C_create_collection [] None) >> 
  ok (sg 2) (C_create_nft [] 1000000 None false) >> ok (sg 2) (C_create_collection [] None) >> 
  now_ (fun s1 => chk (fun _ => (if nfts (s_nft s1) !! 0 then true else false) = true) >> 
  chk (fun _ => (if nfts (s_nft s1) !! 1 then true else false) = true) >> 
  chk (fun _ => (if colls (s_nft s1) !! 0 then true else false) = true) >> 
  chk (fun _ => (if colls (s_nft s1) !! 1 then true else false) = true) >> 
  no (sg 1) (C_create_nft [] 0 None false) (Balances_KeepAlive) >> chk (fun _ => (bal 1 s1) = (bal 1 s1)) >> fin))
  (start_with [(1, 20); (2, 1000)]).
Proof. replay. Qed.

(** * extrinsics, burn_nft *)
Example burn_nft : (ok (sg 1) (C_create_nft [] 1000000 None false) >> ok (sg 1) (C_create_collection [] None) >> 
  ok (sg 2) (C_create_nft [] 1000000 None false) >> ok (sg 2) (C_create_collection [] None) >> 
  now_ (fun s1 => chk (fun _ => (if nfts (s_nft s1) !! 0 then true else false) = true) >> 
  chk (fun _ => (if nfts (s_nft s1) !! 1 then true else false) = true) >> 
  chk (fun _ => (if colls (s_nft s1) !! 0 then true else false) = true) >> 
  chk (fun _ => (if colls (s_nft s1) !! 1 then true else false) = true) >> ok (sg 1) (C_burn_nft 0) >> 
  now_ (fun s2 => chk (fun _ => (if nfts (s_nft s2) !! 0 then true else false) = false) >> last_ (Ev_NFTBurned 0) >> fin)))
  (start_with [(1, 1000); (2, 1000)]).
Proof. replay. Qed.
Example burn_nft_in_collection : (ok (sg 1) (C_create_nft [] 1000000 None false) >> ok (sg 1) (C_create_collection [] None) >> 
  ok (sg 2) (C_create_nft [] 1000000 None false) >> ok (sg 2) (C_create_collection [] None) >> 
  now_ (fun s1 => chk (fun _ => (if nfts (s_nft s1) !! 0 then true else false) = true) >> 
  chk (fun _ => (if nfts (s_nft s1) !! 1 then true else false) = true) >> 
  chk (fun _ => (if colls (s_nft s1) !! 0 then true else false) = true) >> 
  chk (fun _ => (if colls (s_nft s1) !! 1 then true else false) = true) >> 
  chk (fun _ => (if colls (s_nft s1) !! 0 then true else false) = true) >> ok (sg 1) (C_add_nft_to_collection 0 0) >> 
  ok (sg 1) (C_burn_nft 0) >> 
  now_ (fun s2 => chk (fun _ => (if nfts (s_nft s2) !! 0 then true else false) = false) >> 
  chk (fun _ => (if colls (s_nft s2) !! 0 then true else false) = true) >> 
  chk (fun _ => (c_nfts (default dcoll (colls (s_nft s2) !! 0))) = (c_nfts (default dcoll (colls (s_nft s1) !! 0)))) >> 
  last_ (Ev_NFTBurned 0) >> fin)))
  (start_with [(1, 1000); (2, 1000)]).
Proof. replay. Qed.
Example burn_synced_secret_nft : (ok (sg 1) (C_create_nft [] 1000000 None false) >> ok (sg 1) (C_create_collection [] None) >> 
  ok (sg 2) (C_create_nft [] 1000000 None false) >> ok (sg 2) (C_create_collection [] None) >> 
  now_ (fun s1 => chk (fun _ => (if nfts (s_nft s1) !! 0 then true else false) = true) >> 
  chk (fun _ => (if nfts (s_nft s1) !! 1 then true else false) = true) >> 
  chk (fun _ => (if colls (s_nft s1) !! 0 then true else false) = true) >> 
  chk (fun _ => (if colls (s_nft s1) !! 1 then true else false) = true) >> ok (sg 1) (C_add_secret 0 []) >> 
  flag 0 (fun _ => mkNftState false false true false false false false false false) >> 
  now_ (fun s2 => chk (fun _ => (if secret_data (s_nft s2) !! 0 then true else false) = true) >> 
  chk (fun _ => (default [] (secret_data (s_nft s2) !! 0)) = []) >> ok (sg 1) (C_burn_nft 0) >> 
  now_ (fun s3 => chk (fun _ => (if nfts (s_nft s3) !! 0 then false else true) = true) >> 
  chk (fun _ => (if secret_data (s_nft s3) !! 0 then false else true) = true) >> last_ (Ev_NFTBurned 0) >> fin))))
  (start_with [(1, 1000); (2, 1000)]).
Proof. replay. Qed.
Example burn_syncing_secret_nft : (ok (sg 1) (C_create_nft [] 1000000 None false) >> ok (sg 1) (C_create_collection [] None) >> 
  ok (sg 2) (C_create_nft [] 1000000 None false) >> ok (sg 2) (C_create_collection [] None) >> 
  now_ (fun s1 => chk (fun _ => (if nfts (s_nft s1) !! 0 then true else false) = true) >> 
  chk (fun _ => (if nfts (s_nft s1) !! 1 then true else false) = true) >> 
  chk (fun _ => (if colls (s_nft s1) !! 0 then true else false) = true) >> 
  chk (fun _ => (if colls (s_nft s1) !! 1 then true else false) = true) >> upd (fun s => s <| s_era := Some 1 |>) >> 
  ok (sg 1) (C_register_enclave 4 [116; 101; 115; 116]) >> ok (sg 2) (C_register_enclave 5 [116; 101; 115; 116]) >> 
  ok (sg 3) (C_register_enclave 6 [116; 101; 115; 116]) >> ok Root (C_create_cluster ClPublic) >> 
  ok Root (C_create_cluster ClPublic) >> ok Root (C_assign_enclave 1 0 0) >> ok Root (C_assign_enclave 2 0 1) >> 
  ok Root (C_assign_enclave 3 1 2) >> ok (sg 1) (C_add_secret 0 []) >> ok (sg 4) (C_add_secret_shard 0) >> 
  now_ (fun s2 => chk (fun _ => (if secret_data (s_nft s2) !! 0 then true else false) = true) >> 
  chk (fun _ => (default [] (secret_data (s_nft s2) !! 0)) = []) >> 
  chk (fun _ => (if secret_shards (s_nft s2) !! 0 then true else false) = true) >> 
  chk (fun _ => (nlen (default [] (secret_shards (s_nft s2) !! 0))) = 1) >> ok (sg 1) (C_burn_nft 0) >> 
  now_ (fun s3 => chk (fun _ => (if nfts (s_nft s3) !! 0 then false else true) = true) >> 
  chk (fun _ => (if secret_data (s_nft s3) !! 0 then false else true) = true) >> 
  chk (fun _ => (if secret_shards (s_nft s3) !! 0 then false else true) = true) >> last_ (Ev_NFTBurned 0) >> fin))))
  (start_with [(1, 1000); (2, 1000); (3, 1000)]).
Proof. replay. Qed.
Example burn_synced_capsule : (ok (sg 1) (C_create_nft [] 1000000 None false) >> ok (sg 1) (C_create_collection [] None) >> 
  ok (sg 2) (C_create_nft [] 1000000 None false) >> ok (sg 2) (C_create_collection [] None) >> 
  now_ (fun s1 => chk (fun _ => (if nfts (s_nft s1) !! 0 then true else false) = true) >> 
  chk (fun _ => (if nfts (s_nft s1) !! 1 then true else false) = true) >> 
  chk (fun _ => (if colls (s_nft s1) !! 0 then true else false) = true) >> 
  chk (fun _ => (if colls (s_nft s1) !! 1 then true else false) = true) >> ok (sg 1) (C_convert_to_capsule 0 []) >> 
  flag 0 (fun _ => mkNftState true false false false false true false false false) >> 
  now_ (fun s2 => chk (fun _ => (if capsule_data (s_nft s2) !! 0 then true else false) = true) >> 
  chk (fun _ => (default [] (capsule_data (s_nft s2) !! 0)) = []) >> ok (sg 1) (C_burn_nft 0) >> 
  now_ (fun s3 => chk (fun _ => (if nfts (s_nft s3) !! 0 then false else true) = true) >> 
  chk (fun _ => (if capsule_data (s_nft s3) !! 0 then false else true) = true) >> last_ (Ev_NFTBurned 0) >> fin))))
  (start_with [(1, 1000); (2, 1000)]).
Proof. replay. Qed.
Example burn_syncing_capsule : (ok (sg 1) (C_create_nft [] 1000000 None false) >> ok (sg 1) (C_create_collection [] None) >> 
  ok (sg 2) (C_create_nft [] 1000000 None false) >> ok (sg 2) (C_create_collection [] None) >> 
  now_ (fun s1 => chk (fun _ => (if nfts (s_nft s1) !! 0 then true else false) = true) >> 
  chk (fun _ => (if nfts (s_nft s1) !! 1 then true else false) = true) >> 
  chk (fun _ => (if colls (s_nft s1) !! 0 then true else false) = true) >> 
  chk (fun _ => (if colls (s_nft s1) !! 1 then true else false) = true) >> upd (fun s => s <| s_era := Some 1 |>) >> 
  ok (sg 1) (C_register_enclave 4 [116; 101; 115; 116]) >> ok (sg 2) (C_register_enclave 5 [116; 101; 115; 116]) >> 
  ok (sg 3) (C_register_enclave 6 [116; 101; 115; 116]) >> ok Root (C_create_cluster ClPublic) >> 
  ok Root (C_create_cluster ClPublic) >> ok Root (C_assign_enclave 1 0 0) >> ok Root (C_assign_enclave 2 0 1) >> 
  ok Root (C_assign_enclave 3 1 2) >> ok (sg 1) (C_convert_to_capsule 0 []) >> ok (sg 4) (C_add_capsule_shard 0) >> 
  now_ (fun s2 => chk (fun _ => (if capsule_data (s_nft s2) !! 0 then true else false) = true) >> 
  chk (fun _ => (default [] (capsule_data (s_nft s2) !! 0)) = []) >> 
  chk (fun _ => (if capsule_shards (s_nft s2) !! 0 then true else false) = true) >> 
  chk (fun _ => (nlen (default [] (capsule_shards (s_nft s2) !! 0))) = 1) >> ok (sg 1) (C_burn_nft 0) >> 
  now_ (fun s3 => chk (fun _ => (if nfts (s_nft s3) !! 0 then false else true) = true) >> 
  chk (fun _ => (if capsule_data (s_nft s3) !! 0 then false else true) = true) >> 
  chk (fun _ => (if capsule_shards (s_nft s3) !! 0 then false else true) = true) >> last_ (Ev_NFTBurned 0) >> fin))))
  (start_with [(1, 1000); (2, 1000); (3, 1000)]).
Proof. replay. Qed.
Example nft_not_found : (no (sg 1) (C_burn_nft 0) (Nft_err N_NFTNotFound) >> fin)
  (start_with [(1, 1000); (2, 1000)]).
Proof. replay. Qed.
Example not_the_nft_owner : (ok (sg 1) (C_create_nft [] 1000000 None false) >> ok (sg 1) (C_create_collection [] None) >> 
  ok (sg 2) (C_create_nft [] 1000000 None false) >> ok (sg 2) (C_create_collection [] None) >> 
  now_ (fun s1 => chk (fun _ => (if nfts (s_nft s1) !! 0 then true else false) = true) >> 
  chk (fun _ => (if nfts (s_nft s1) !! 1 then true else false) = true) >> 
  chk (fun _ => (if colls (s_nft s1) !! 0 then true else false) = true) >> 
  chk (fun _ => (if colls (s_nft s1) !! 1 then true else false) = true) >> no (sg 2) (C_burn_nft 0) (Nft_err N_NotTheNFTOwner) >> fin))
  (start_with [(1, 1000); (2, 1000)]).
Proof. replay. Qed.
Example cannot_burn_listed_nfts : (ok (sg 1) (C_create_nft [] 1000000 None false) >> ok (sg 1) (C_create_collection [] None) >> 
  ok (sg 2) (C_create_nft [] 1000000 None false) >> ok (sg 2) (C_create_collection [] None) >> 
  now_ (fun s1 => chk (fun _ => (if nfts (s_nft s1) !! 0 then true else false) = true) >> 
  chk (fun _ => (if nfts (s_nft s1) !! 1 then true else false) = true) >> 
  chk (fun _ => (if colls (s_nft s1) !! 0 then true else false) = true) >> 
  chk (fun _ => (if colls (s_nft s1) !! 1 then true else false) = true) >> 
  flag 0 (fun _ => mkNftState false true false false false false false false false) >> 
  no (sg 1) (C_burn_nft 0) (Nft_err N_CannotBurnListedNFTs) >> fin))
  (start_with [(1, 1000); (2, 1000)]).
Proof. replay. Qed.
Example cannot_burn_delegated_nfts : (ok (sg 1) (C_create_nft [] 1000000 None false) >> ok (sg 1) (C_create_collection [] None) >> 
  ok (sg 2) (C_create_nft [] 1000000 None false) >> ok (sg 2) (C_create_collection [] None) >> 
  now_ (fun s1 => chk (fun _ => (if nfts (s_nft s1) !! 0 then true else false) = true) >> 
  chk (fun _ => (if nfts (s_nft s1) !! 1 then true else false) = true) >> 
  chk (fun _ => (if colls (s_nft s1) !! 0 then true else false) = true) >> 
  chk (fun _ => (if colls (s_nft s1) !! 1 then true else false) = true) >> ok (sg 1) (C_delegate_nft 0 (Some 2)) >> 
  no (sg 1) (C_burn_nft 0) (Nft_err N_CannotBurnDelegatedNFTs) >> fin))
  (start_with [(1, 1000); (2, 1000)]).
Proof. replay. Qed.
Example cannot_burn_rented_nfts : (ok (sg 1) (C_create_nft [] 1000000 None false) >> ok (sg 1) (C_create_collection [] None) >> 
  ok (sg 2) (C_create_nft [] 1000000 None false) >> ok (sg 2) (C_create_collection [] None) >> 
  now_ (fun s1 => chk (fun _ => (if nfts (s_nft s1) !! 0 then true else false) = true) >> 
  chk (fun _ => (if nfts (s_nft s1) !! 1 then true else false) = true) >> 
  chk (fun _ => (if colls (s_nft s1) !! 0 then true else false) = true) >> 
  chk (fun _ => (if colls (s_nft s1) !! 1 then true else false) = true) >> 
  flag 0 (fun _ => mkNftState false false false false false false true false false) >> 
  no (sg 1) (C_burn_nft 0) (Nft_err N_CannotBurnRentedNFTs) >> fin))
  (start_with [(1, 1000); (2, 1000)]).
Proof. replay. Qed.
Example cannot_burn_nfts_in_transmission : (ok (sg 1) (C_create_nft [] 1000000 None false) >> ok (sg 1) (C_create_collection [] None) >> 
  ok (sg 2) (C_create_nft [] 1000000 None false) >> ok (sg 2) (C_create_collection [] None) >> 
  now_ (fun s1 => chk (fun _ => (if nfts (s_nft s1) !! 0 then true else false) = true) >> 
  chk (fun _ => (if nfts (s_nft s1) !! 1 then true else false) = true) >> 
  chk (fun _ => (if colls (s_nft s1) !! 0 then true else false) = true) >> 
  chk (fun _ => (if colls (s_nft s1) !! 1 then true else false) = true) >> 
  flag 0 (fun _ => mkNftState false false false false false false false false true) >> 
  no (sg 1) (C_burn_nft 0) (Nft_err N_CannotBurnNFTsInTransmission) >> fin))
  (start_with [(1, 1000); (2, 1000)]).
Proof. replay. Qed.

(** * extrinsics, transfer_nft *)
Example transfer_nft : (ok (sg 1) (C_create_nft [] 1000000 None false) >> ok (sg 1) (C_create_collection [] None) >> 
  ok (sg 2) (C_create_nft [] 1000000 None false) >> ok (sg 2) (C_create_collection [] None) >> 
  now_ (fun s1 => chk (fun _ => (if nfts (s_nft s1) !! 0 then true else false) = true) >> 
  chk (fun _ => (if nfts (s_nft s1) !! 1 then true else false) = true) >> 
  chk (fun _ => (if colls (s_nft s1) !! 0 then true else false) = true) >> 
  chk (fun _ => (if colls (s_nft s1) !! 1 then true else false) = true) >> ok (sg 1) (C_transfer_nft 0 2) >> 
  now_ (fun s2 => chk (fun _ => (if nfts (s_nft s2) !! 0 then true else false) = true) >> 
  chk (fun _ => (owner (default dnft (nfts (s_nft s2) !! 0))) = 2) >> 
  chk (fun _ => (creator (default dnft (nfts (s_nft s2) !! 0))) = 1) >> last_ (Ev_NFTTransferred 0 1 2) >> fin)))
  (start_with [(1, 1000); (2, 1000)]).
Proof. replay. Qed.
Example transfer_nft_nft_not_found : (ok (sg 1) (C_create_nft [] 1000000 None false) >> ok (sg 1) (C_create_collection [] None) >> 
  ok (sg 2) (C_create_nft [] 1000000 None false) >> ok (sg 2) (C_create_collection [] None) >> 
  now_ (fun s1 => chk (fun _ => (if nfts (s_nft s1) !! 0 then true else false) = true) >> 
  chk (fun _ => (if nfts (s_nft s1) !! 1 then true else false) = true) >> 
  chk (fun _ => (if colls (s_nft s1) !! 0 then true else false) = true) >> 
  chk (fun _ => (if colls (s_nft s1) !! 1 then true else false) = true) >> 
  no (sg 1) (C_transfer_nft 1001 2) (Nft_err N_NFTNotFound) >> fin))
  (start_with [(1, 1000); (2, 1000)]).
Proof. replay. Qed.
Example transfer_nft_not_the_nft_owner : (ok (sg 1) (C_create_nft [] 1000000 None false) >> ok (sg 1) (C_create_collection [] None) >> 
  ok (sg 2) (C_create_nft [] 1000000 None false) >> ok (sg 2) (C_create_collection [] None) >> 
  now_ (fun s1 => chk (fun _ => (if nfts (s_nft s1) !! 0 then true else false) = true) >> 
  chk (fun _ => (if nfts (s_nft s1) !! 1 then true else false) = true) >> 
  chk (fun _ => (if colls (s_nft s1) !! 0 then true else false) = true) >> 
  chk (fun _ => (if colls (s_nft s1) !! 1 then true else false) = true) >> 
  no (sg 1) (C_transfer_nft 1 2) (Nft_err N_NotTheNFTOwner) >> fin))
  (start_with [(1, 1000); (2, 1000)]).
Proof. replay. Qed.
Example cannot_transfer_nfts_to_yourself : (ok (sg 1) (C_create_nft [] 1000000 None false) >> ok (sg 1) (C_create_collection [] None) >> 
  ok (sg 2) (C_create_nft [] 1000000 None false) >> ok (sg 2) (C_create_collection [] None) >> 
  now_ (fun s1 => chk (fun _ => (if nfts (s_nft s1) !! 0 then true else false) = true) >> 
  chk (fun _ => (if nfts (s_nft s1) !! 1 then true else false) = true) >> 
  chk (fun _ => (if colls (s_nft s1) !! 0 then true else false) = true) >> 
  chk (fun _ => (if colls (s_nft s1) !! 1 then true else false) = true) >> 
  no (sg 1) (C_transfer_nft 0 1) (Nft_err N_CannotTransferNFTsToYourself) >> fin))
  (start_with [(1, 1000); (2, 1000)]).
Proof. replay. Qed.
Example cannot_transfer_listed_nfts : (ok (sg 1) (C_create_nft [] 1000000 None false) >> ok (sg 1) (C_create_collection [] None) >> 
  ok (sg 2) (C_create_nft [] 1000000 None false) >> ok (sg 2) (C_create_collection [] None) >> 
  now_ (fun s1 => chk (fun _ => (if nfts (s_nft s1) !! 0 then true else false) = true) >> 
  chk (fun _ => (if nfts (s_nft s1) !! 1 then true else false) = true) >> 
  chk (fun _ => (if colls (s_nft s1) !! 0 then true else false) = true) >> 
  chk (fun _ => (if colls (s_nft s1) !! 1 then true else false) = true) >> 
  flag 0 (fun _ => mkNftState false true false false false false false false false) >> 
  no (sg 1) (C_transfer_nft 0 2) (Nft_err N_CannotTransferListedNFTs) >> fin))
  (start_with [(1, 1000); (2, 1000)]).
Proof. replay. Qed.
Example cannot_transfer_delegated_nfts : (ok (sg 1) (C_create_nft [] 1000000 None false) >> ok (sg 1) (C_create_collection [] None) >> 
  ok (sg 2) (C_create_nft [] 1000000 None false) >> ok (sg 2) (C_create_collection [] None) >> 
  now_ (fun s1 => chk (fun _ => (if nfts (s_nft s1) !! 0 then true else false) = true) >> 
  chk (fun _ => (if nfts (s_nft s1) !! 1 then true else false) = true) >> 
  chk (fun _ => (if colls (s_nft s1) !! 0 then true else false) = true) >> 
  chk (fun _ => (if colls (s_nft s1) !! 1 then true else false) = true) >> ok (sg 1) (C_delegate_nft 0 (Some 2)) >> 
  no (sg 1) (C_transfer_nft 0 2) (Nft_err N_CannotTransferDelegatedNFTs) >> fin))
  (start_with [(1, 1000); (2, 1000)]).
Proof. replay. Qed.
Example cannot_transfer_not_created_soulbound_nfts : (ok (sg 1) (C_create_nft [] 1000000 None false) >> ok (sg 1) (C_create_collection [] None) >> 
  ok (sg 2) (C_create_nft [] 1000000 None false) >> ok (sg 2) (C_create_collection [] None) >> 
  now_ (fun s1 => chk (fun _ => (if nfts (s_nft s1) !! 0 then true else false) = true) >> 
  chk (fun _ => (if nfts (s_nft s1) !! 1 then true else false) = true) >> 
  chk (fun _ => (if colls (s_nft s1) !! 0 then true else false) = true) >> 
  chk (fun _ => (if colls (s_nft s1) !! 1 then true else false) = true) >> ok (sg 1) (C_create_nft [] 0 None true) >> 
  now_ (fun s2 => upd (fun s => s <| s_nft ::= fun n => n <| next_nft ::= N.succ |> |>) >> 
  now_ (fun s3 => chk (fun _ => (if nfts (s_nft s3) !! ((next_nft (s_nft s2)) - 1) then true else false) = true) >> 
  edit ((next_nft (s_nft s2)) - 1) (fun _ => (default dnft (nfts (s_nft s3) !! ((next_nft (s_nft s2)) - 1))) <| creator := 2 |>) >> 
  no (sg 1) (C_transfer_nft ((next_nft (s_nft s2)) - 1) 2) (Nft_err N_CannotTransferNotCreatedSoulboundNFTs) >> fin))))
  (start_with [(1, 1000); (2, 1000)]).
Proof. replay. Qed.
Example cannot_transfer_not_synced_secret_nfts : (ok (sg 1) (C_create_nft [] 1000000 None false) >> ok (sg 1) (C_create_collection [] None) >> 
  ok (sg 2) (C_create_nft [] 1000000 None false) >> ok (sg 2) (C_create_collection [] None) >> 
  now_ (fun s1 => chk (fun _ => (if nfts (s_nft s1) !! 0 then true else false) = true) >> 
  chk (fun _ => (if nfts (s_nft s1) !! 1 then true else false) = true) >> 
  chk (fun _ => (if colls (s_nft s1) !! 0 then true else false) = true) >> 
  chk (fun _ => (if colls (s_nft s1) !! 1 then true else false) = true) >> 
  flag 0 (fun _ => mkNftState false false true false false true false false false) >> 
  no (sg 1) (C_transfer_nft 0 2) (Nft_err N_CannotTransferNotSyncedSecretNFTs) >> fin))
  (start_with [(1, 1000); (2, 1000)]).
Proof. replay. Qed.
Example cannot_transfer_rented_nfts : (ok (sg 1) (C_create_nft [] 1000000 None false) >> ok (sg 1) (C_create_collection [] None) >> 
  ok (sg 2) (C_create_nft [] 1000000 None false) >> ok (sg 2) (C_create_collection [] None) >> 
  now_ (fun s1 => chk (fun _ => (if nfts (s_nft s1) !! 0 then true else false) = true) >> 
  chk (fun _ => (if nfts (s_nft s1) !! 1 then true else false) = true) >> 
  chk (fun _ => (if colls (s_nft s1) !! 0 then true else false) = true) >> 
  chk (fun _ => (if colls (s_nft s1) !! 1 then true else false) = true) >> 
  flag 0 (fun _ => mkNftState false false false false false false true false false) >> 
  no (sg 1) (C_transfer_nft 0 2) (Nft_err N_CannotTransferRentedNFTs) >> fin))
  (start_with [(1, 1000); (2, 1000)]).
Proof. replay. Qed.
Example cannot_transfer_not_synced_capsules : (ok (sg 1) (C_create_nft [] 1000000 None false) >> ok (sg 1) (C_create_collection [] None) >> 
  ok (sg 2) (C_create_nft [] 1000000 None false) >> ok (sg 2) (C_create_collection [] None) >> 
  now_ (fun s1 => chk (fun _ => (if nfts (s_nft s1) !! 0 then true else false) = true) >> 
  chk (fun _ => (if nfts (s_nft s1) !! 1 then true else false) = true) >> 
  chk (fun _ => (if colls (s_nft s1) !! 0 then true else false) = true) >> 
  chk (fun _ => (if colls (s_nft s1) !! 1 then true else false) = true) >> 
  flag 0 (fun _ => mkNftState true false false false false false false true false) >> 
  no (sg 1) (C_transfer_nft 0 2) (Nft_err N_CannotTransferNotSyncedCapsules) >> fin))
  (start_with [(1, 1000); (2, 1000)]).
Proof. replay. Qed.
Example cannot_transfer_nfts_in_transmission : (ok (sg 1) (C_create_nft [] 1000000 None false) >> ok (sg 1) (C_create_collection [] None) >> 
  ok (sg 2) (C_create_nft [] 1000000 None false) >> ok (sg 2) (C_create_collection [] None) >> 
  now_ (fun s1 => chk (fun _ => (if nfts (s_nft s1) !! 0 then true else false) = true) >> 
  chk (fun _ => (if nfts (s_nft s1) !! 1 then true else false) = true) >> 
  chk (fun _ => (if colls (s_nft s1) !! 0 then true else false) = true) >> 
  chk (fun _ => (if colls (s_nft s1) !! 1 then true else false) = true) >> 
  flag 0 (fun _ => mkNftState false false false false false false false false true) >> 
  no (sg 1) (C_transfer_nft 0 2) (Nft_err N_CannotTransferNFTsInTransmission) >> fin))
  (start_with [(1, 1000); (2, 1000)]).
Proof. replay. Qed.

(** * extrinsics, delegate_nft *)
Example delegate_nft : (ok (sg 1) (C_create_nft [] 1000000 None false) >> ok (sg 1) (C_create_collection [] None) >> 
  ok (sg 2) (C_create_nft [] 1000000 None false) >> ok (sg 2) (C_create_collection [] None) >> 
  now_ (fun s1 => chk (fun _ => (if nfts (s_nft s1) !! 0 then true else false) = true) >> 
  chk (fun _ => (if nfts (s_nft s1) !! 1 then true else false) = true) >> 
  chk (fun _ => (if colls (s_nft s1) !! 0 then true else false) = true) >> 
  chk (fun _ => (if colls (s_nft s1) !! 1 then true else false) = true) >> 
  chk (fun _ => (if nfts (s_nft s1) !! 0 then true else false) = true) >> ok (sg 1) (C_delegate_nft 0 (Some 2)) >> 
  now_ (fun s2 => 
  chk (fun _ => (nfts (s_nft s2) !! 0) = (Some ((default dnft (nfts (s_nft s1) !! 0)) <| nstate := (nstate (default dnft (nfts (s_nft s1) !! 0))) <| is_delegated := true |> |>))) >> 
  chk (fun _ => (delegated (s_nft s2) !! 0) = (Some 2)) >> last_ (Ev_NFTDelegated 0 (Some 2)) >> fin)))
  (start_with [(1, 1000); (2, 1000)]).
Proof. replay. Qed.
Example delegate_nft_to_none : (ok (sg 1) (C_create_nft [] 1000000 None false) >> ok (sg 1) (C_create_collection [] None) >> 
  ok (sg 2) (C_create_nft [] 1000000 None false) >> ok (sg 2) (C_create_collection [] None) >> 
  now_ (fun s1 => chk (fun _ => (if nfts (s_nft s1) !! 0 then true else false) = true) >> 
  chk (fun _ => (if nfts (s_nft s1) !! 1 then true else false) = true) >> 
  chk (fun _ => (if colls (s_nft s1) !! 0 then true else false) = true) >> 
  chk (fun _ => (if colls (s_nft s1) !! 1 then true else false) = true) >> 
  chk (fun _ => (if nfts (s_nft s1) !! 0 then true else false) = true) >> ok (sg 1) (C_delegate_nft 0 (Some 2)) >> 
  ok (sg 1) (C_delegate_nft 0 None) >> 
  now_ (fun s2 => 
  chk (fun _ => (nfts (s_nft s2) !! 0) = (Some ((default dnft (nfts (s_nft s1) !! 0)) <| nstate := (nstate (default dnft (nfts (s_nft s1) !! 0))) <| is_delegated := false |> |>))) >> 
  chk (fun _ => (delegated (s_nft s2) !! 0) = None) >> last_ (Ev_NFTDelegated 0 None) >> fin)))
  (start_with [(1, 1000); (2, 1000)]).
Proof. replay. Qed.
Example delegate_nft_nft_not_found : (ok (sg 1) (C_create_nft [] 1000000 None false) >> ok (sg 1) (C_create_collection [] None) >> 
  ok (sg 2) (C_create_nft [] 1000000 None false) >> ok (sg 2) (C_create_collection [] None) >> 
  now_ (fun s1 => chk (fun _ => (if nfts (s_nft s1) !! 0 then true else false) = true) >> 
  chk (fun _ => (if nfts (s_nft s1) !! 1 then true else false) = true) >> 
  chk (fun _ => (if colls (s_nft s1) !! 0 then true else false) = true) >> 
  chk (fun _ => (if colls (s_nft s1) !! 1 then true else false) = true) >> 
  no (sg 1) (C_delegate_nft 1001 None) (Nft_err N_NFTNotFound) >> fin))
  (start_with [(1, 1000); (2, 1000)]).
Proof. replay. Qed.
Example delegate_nft_not_the_nft_owner : (ok (sg 1) (C_create_nft [] 1000000 None false) >> ok (sg 1) (C_create_collection [] None) >> 
  ok (sg 2) (C_create_nft [] 1000000 None false) >> ok (sg 2) (C_create_collection [] None) >> 
  now_ (fun s1 => chk (fun _ => (if nfts (s_nft s1) !! 0 then true else false) = true) >> 
  chk (fun _ => (if nfts (s_nft s1) !! 1 then true else false) = true) >> 
  chk (fun _ => (if colls (s_nft s1) !! 0 then true else false) = true) >> 
  chk (fun _ => (if colls (s_nft s1) !! 1 then true else false) = true) >> 
  no (sg 1) (C_delegate_nft 1 None) (Nft_err N_NotTheNFTOwner) >> fin))
  (start_with [(1, 1000); (2, 1000)]).
Proof. replay. Qed.
Example cannot_delegate_listed_nfts : (ok (sg 1) (C_create_nft [] 1000000 None false) >> ok (sg 1) (C_create_collection [] None) >> 
  ok (sg 2) (C_create_nft [] 1000000 None false) >> ok (sg 2) (C_create_collection [] None) >> 
  now_ (fun s1 => chk (fun _ => (if nfts (s_nft s1) !! 0 then true else false) = true) >> 
  chk (fun _ => (if nfts (s_nft s1) !! 1 then true else false) = true) >> 
  chk (fun _ => (if colls (s_nft s1) !! 0 then true else false) = true) >> 
  chk (fun _ => (if colls (s_nft s1) !! 1 then true else false) = true) >> 
  flag 0 (fun _ => mkNftState false true false false false false false false false) >> 
  no (sg 1) (C_delegate_nft 0 None) (Nft_err N_CannotDelegateListedNFTs) >> fin))
  (start_with [(1, 1000); (2, 1000)]).
Proof. replay. Qed.
Example cannot_delegate_rented_nfts : (ok (sg 1) (C_create_nft [] 1000000 None false) >> ok (sg 1) (C_create_collection [] None) >> 
  ok (sg 2) (C_create_nft [] 1000000 None false) >> ok (sg 2) (C_create_collection [] None) >> 
  now_ (fun s1 => chk (fun _ => (if nfts (s_nft s1) !! 0 then true else false) = true) >> 
  chk (fun _ => (if nfts (s_nft s1) !! 1 then true else false) = true) >> 
  chk (fun _ => (if colls (s_nft s1) !! 0 then true else false) = true) >> 
  chk (fun _ => (if colls (s_nft s1) !! 1 then true else false) = true) >> 
  flag 0 (fun _ => mkNftState false false false false false false true false false) >> 
  no (sg 1) (C_delegate_nft 0 None) (Nft_err N_CannotDelegateRentedNFTs) >> fin))
  (start_with [(1, 1000); (2, 1000)]).
Proof. replay. Qed.
Example cannot_delegate_syncing_nfts : (ok (sg 1) (C_create_nft [] 1000000 None false) >> ok (sg 1) (C_create_collection [] None) >> 
  ok (sg 2) (C_create_nft [] 1000000 None false) >> ok (sg 2) (C_create_collection [] None) >> 
  now_ (fun s1 => chk (fun _ => (if nfts (s_nft s1) !! 0 then true else false) = true) >> 
  chk (fun _ => (if nfts (s_nft s1) !! 1 then true else false) = true) >> 
  chk (fun _ => (if colls (s_nft s1) !! 0 then true else false) = true) >> 
  chk (fun _ => (if colls (s_nft s1) !! 1 then true else false) = true) >> 
  flag 0 (fun _ => mkNftState false false false false false true false false false) >> 
  no (sg 1) (C_delegate_nft 0 None) (Nft_err N_CannotDelegateSyncingNFTs) >> fin))
  (start_with [(1, 1000); (2, 1000)]).
Proof. replay. Qed.
Example cannot_delegate_syncing_capsules : (ok (sg 1) (C_create_nft [] 1000000 None false) >> ok (sg 1) (C_create_collection [] None) >> 
  ok (sg 2) (C_create_nft [] 1000000 None false) >> ok (sg 2) (C_create_collection [] None) >> 
  now_ (fun s1 => chk (fun _ => (if nfts (s_nft s1) !! 0 then true else false) = true) >> 
  chk (fun _ => (if nfts (s_nft s1) !! 1 then true else false) = true) >> 
  chk (fun _ => (if colls (s_nft s1) !! 0 then true else false) = true) >> 
  chk (fun _ => (if colls (s_nft s1) !! 1 then true else false) = true) >> 
  flag 0 (fun _ => mkNftState true false false false false false false true false) >> 
  no (sg 1) (C_delegate_nft 0 None) (Nft_err N_CannotDelegateSyncingCapsules) >> fin))
  (start_with [(1, 1000); (2, 1000)]).
Proof. replay. Qed.
Example cannot_delegate_nfts_in_transmission : (ok (sg 1) (C_create_nft [] 1000000 None false) >> ok (sg 1) (C_create_collection [] None) >> 
  ok (sg 2) (C_create_nft [] 1000000 None false) >> ok (sg 2) (C_create_collection [] None) >> 
  now_ (fun s1 => chk (fun _ => (if nfts (s_nft s1) !! 0 then true else false) = true) >> 
  chk (fun _ => (if nfts (s_nft s1) !! 1 then true else false) = true) >> 
  chk (fun _ => (if colls (s_nft s1) !! 0 then true else false) = true) >> 
  chk (fun _ => (if colls (s_nft s1) !! 1 then true else false) = true) >> 
  flag 0 (fun _ => mkNftState false false false false false false false false true) >> 
  no (sg 1) (C_delegate_nft 0 None) (Nft_err N_CannotDelegateNFTsInTransmission) >> fin))
  (start_with [(1, 1000); (2, 1000)]).
Proof. replay. Qed.

(** * extrinsics, set_royalty *)
Example set_royalty : (ok (sg 1) (C_create_nft [] 1000000 None false) >> ok (sg 1) (C_create_collection [] None) >> 
  ok (sg 2) (C_create_nft [] 1000000 None false) >> ok (sg 2) (C_create_collection [] None) >> 
  now_ (fun s1 => chk (fun _ => (if nfts (s_nft s1) !! 0 then true else false) = true) >> 
  chk (fun _ => (if nfts (s_nft s1) !! 1 then true else false) = true) >> 
  chk (fun _ => (if colls (s_nft s1) !! 0 then true else false) = true) >> 
  chk (fun _ => (if colls (s_nft s1) !! 1 then true else false) = true) >> 
  chk (fun _ => (if nfts (s_nft s1) !! 0 then true else false) = true) >> ok (sg 1) (C_set_royalty 0 800000) >> 
  now_ (fun s2 => chk (fun _ => (nfts (s_nft s2) !! 0) = (Some ((default dnft (nfts (s_nft s1) !! 0)) <| royalty := 800000 |>))) >> 
  last_ (Ev_NFTRoyaltySet 0 800000) >> fin)))
  (start_with [(1, 1000); (2, 1000)]).
Proof. replay. Qed.
Example set_royalty_nft_not_found : (ok (sg 1) (C_create_nft [] 1000000 None false) >> ok (sg 1) (C_create_collection [] None) >> 
  ok (sg 2) (C_create_nft [] 1000000 None false) >> ok (sg 2) (C_create_collection [] None) >> 
  now_ (fun s1 => chk (fun _ => (if nfts (s_nft s1) !! 0 then true else false) = true) >> 
  chk (fun _ => (if nfts (s_nft s1) !! 1 then true else false) = true) >> 
  chk (fun _ => (if colls (s_nft s1) !! 0 then true else false) = true) >> 
  chk (fun _ => (if colls (s_nft s1) !! 1 then true else false) = true) >> 
  no (sg 1) (C_set_royalty 1001 800000) (Nft_err N_NFTNotFound) >> fin))
  (start_with [(1, 1000); (2, 1000)]).
Proof. replay. Qed.
Example not_the_owner : (ok (sg 1) (C_create_nft [] 1000000 None false) >> ok (sg 1) (C_create_collection [] None) >> 
  ok (sg 2) (C_create_nft [] 1000000 None false) >> ok (sg 2) (C_create_collection [] None) >> 
  now_ (fun s1 => chk (fun _ => (if nfts (s_nft s1) !! 0 then true else false) = true) >> 
  chk (fun _ => (if nfts (s_nft s1) !! 1 then true else false) = true) >> 
  chk (fun _ => (if colls (s_nft s1) !! 0 then true else false) = true) >> 
  chk (fun _ => (if colls (s_nft s1) !! 1 then true else false) = true) >> 
  no (sg 1) (C_set_royalty 1 800000) (Nft_err N_NotTheNFTOwner) >> fin))
  (start_with [(1, 1000); (2, 1000)]).
Proof. replay. Qed.
Example not_the_creator : (ok (sg 1) (C_create_nft [] 1000000 None false) >> ok (sg 1) (C_create_collection [] None) >> 
  ok (sg 2) (C_create_nft [] 1000000 None false) >> ok (sg 2) (C_create_collection [] None) >> 
  now_ (fun s1 => chk (fun _ => (if nfts (s_nft s1) !! 0 then true else false) = true) >> 
  chk (fun _ => (if nfts (s_nft s1) !! 1 then true else false) = true) >> 
  chk (fun _ => (if colls (s_nft s1) !! 0 then true else false) = true) >> 
  chk (fun _ => (if colls (s_nft s1) !! 1 then true else false) = true) >> ok (sg 2) (C_transfer_nft 1 1) >> 
  no (sg 1) (C_set_royalty 1 800000) (Nft_err N_NotTheNFTCreator) >> fin))
  (start_with [(1, 1000); (2, 1000)]).
Proof. replay. Qed.
Example cannot_set_royalty_for_listed_nfts : (ok (sg 1) (C_create_nft [] 1000000 None false) >> ok (sg 1) (C_create_collection [] None) >> 
  ok (sg 2) (C_create_nft [] 1000000 None false) >> ok (sg 2) (C_create_collection [] None) >> 
  now_ (fun s1 => chk (fun _ => (if nfts (s_nft s1) !! 0 then true else false) = true) >> 
  chk (fun _ => (if nfts (s_nft s1) !! 1 then true else false) = true) >> 
  chk (fun _ => (if colls (s_nft s1) !! 0 then true else false) = true) >> 
  chk (fun _ => (if colls (s_nft s1) !! 1 then true else false) = true) >> 
  flag 0 (fun _ => mkNftState false true false false false false false false false) >> 
  no (sg 1) (C_set_royalty 0 800000) (Nft_err N_CannotSetRoyaltyForListedNFTs) >> fin))
  (start_with [(1, 1000); (2, 1000)]).
Proof. replay. Qed.
Example cannot_set_royalty_for_delegated_nfts : (ok (sg 1) (C_create_nft [] 1000000 None false) >> ok (sg 1) (C_create_collection [] None) >> 
  ok (sg 2) (C_create_nft [] 1000000 None false) >> ok (sg 2) (C_create_collection [] None) >> 
  now_ (fun s1 => chk (fun _ => (if nfts (s_nft s1) !! 0 then true else false) = true) >> 
  chk (fun _ => (if nfts (s_nft s1) !! 1 then true else false) = true) >> 
  chk (fun _ => (if colls (s_nft s1) !! 0 then true else false) = true) >> 
  chk (fun _ => (if colls (s_nft s1) !! 1 then true else false) = true) >> ok (sg 1) (C_delegate_nft 0 (Some 2)) >> 
  no (sg 1) (C_set_royalty 0 800000) (Nft_err N_CannotSetRoyaltyForDelegatedNFTs) >> fin))
  (start_with [(1, 1000); (2, 1000)]).
Proof. replay. Qed.
Example cannot_set_royalty_for_rented_nfts : (ok (sg 1) (C_create_nft [] 1000000 None false) >> ok (sg 1) (C_create_collection [] None) >> 
  ok (sg 2) (C_create_nft [] 1000000 None false) >> ok (sg 2) (C_create_collection [] None) >> 
  now_ (fun s1 => chk (fun _ => (if nfts (s_nft s1) !! 0 then true else false) = true) >> 
  chk (fun _ => (if nfts (s_nft s1) !! 1 then true else false) = true) >> 
  chk (fun _ => (if colls (s_nft s1) !! 0 then true else false) = true) >> 
  chk (fun _ => (if colls (s_nft s1) !! 1 then true else false) = true) >> 
  flag 0 (fun _ => mkNftState false false false false false false true false false) >> 
  no (sg 1) (C_set_royalty 0 800000) (Nft_err N_CannotSetRoyaltyForRentedNFTs) >> fin))
  (start_with [(1, 1000); (2, 1000)]).
Proof. replay. Qed.
Example cannot_set_royalty_for_syncing_nfts : (ok (sg 1) (C_create_nft [] 1000000 None false) >> ok (sg 1) (C_create_collection [] None) >> 
  ok (sg 2) (C_create_nft [] 1000000 None false) >> ok (sg 2) (C_create_collection [] None) >> 
  now_ (fun s1 => chk (fun _ => (if nfts (s_nft s1) !! 0 then true else false) = true) >> 
  chk (fun _ => (if nfts (s_nft s1) !! 1 then true else false) = true) >> 
  chk (fun _ => (if colls (s_nft s1) !! 0 then true else false) = true) >> 
  chk (fun _ => (if colls (s_nft s1) !! 1 then true else false) = true) >> 
  flag 0 (fun _ => mkNftState false false false false false true false false false) >> 
  no (sg 1) (C_set_royalty 0 800000) (Nft_err N_CannotSetRoyaltyForSyncingNFTs) >> fin))
  (start_with [(1, 1000); (2, 1000)]).
Proof. replay. Qed.
Example cannot_set_royalty_for_syncing_capsules : (ok (sg 1) (C_create_nft [] 1000000 None false) >> ok (sg 1) (C_create_collection [] None) >> 
  ok (sg 2) (C_create_nft [] 1000000 None false) >> ok (sg 2) (C_create_collection [] None) >> 
  now_ (fun s1 => chk (fun _ => (if nfts (s_nft s1) !! 0 then true else false) = true) >> 
  chk (fun _ => (if nfts (s_nft s1) !! 1 then true else false) = true) >> 
  chk (fun _ => (if colls (s_nft s1) !! 0 then true else false) = true) >> 
  chk (fun _ => (if colls (s_nft s1) !! 1 then true else false) = true) >> 
  flag 0 (fun _ => mkNftState true false false false false false false true false) >> 
  no (sg 1) (C_set_royalty 0 800000) (Nft_err N_CannotSetRoyaltyForSyncingCapsules) >> fin))
  (start_with [(1, 1000); (2, 1000)]).
Proof. replay. Qed.
Example cannot_set_royalty_for_nfts_in_transmission : (ok (sg 1) (C_create_nft [] 1000000 None false) >> ok (sg 1) (C_create_collection [] None) >> 
  ok (sg 2) (C_create_nft [] 1000000 None false) >> ok (sg 2) (C_create_collection [] None) >> 
  now_ (fun s1 => chk (fun _ => (if nfts (s_nft s1) !! 0 then true else false) = true) >> 
  chk (fun _ => (if nfts (s_nft s1) !! 1 then true else false) = true) >> 
  chk (fun _ => (if colls (s_nft s1) !! 0 then true else false) = true) >> 
  chk (fun _ => (if colls (s_nft s1) !! 1 then true else false) = true) >> 
  flag 0 (fun _ => mkNftState false false false false false false false false true) >> 
  no (sg 1) (C_set_royalty 0 800000) (Nft_err N_CannotSetRoyaltyForNFTsInTransmission) >> fin))
  (start_with [(1, 1000); (2, 1000)]).
Proof. replay. Qed.

(** * extrinsics, set_nft_mint_fee *)
Example set_nft_mint_fee : (ok (sg 1) (C_create_nft [] 1000000 None false) >> ok (sg 1) (C_create_collection [] None) >> 
  ok (sg 2) (C_create_nft [] 1000000 None false) >> ok (sg 2) (C_create_collection [] None) >> 
  now_ (fun s1 => chk (fun _ => (if nfts (s_nft s1) !! 0 then true else false) = true) >> 
  chk (fun _ => (if nfts (s_nft s1) !! 1 then true else false) = true) >> 
  chk (fun _ => (if colls (s_nft s1) !! 0 then true else false) = true) >> 
  chk (fun _ => (if colls (s_nft s1) !! 1 then true else false) = true) >> ok Root (C_set_nft_mint_fee 20) >> 
  now_ (fun s2 => chk (fun _ => (mint_fee (s_nft s2)) = 20) >> last_ (Ev_NFTMintFeeSet 20) >> fin)))
  (start_with [(1, 1000); (2, 1000)]).
Proof. replay. Qed.
Example bad_origin : (no (sg 1) (C_set_nft_mint_fee 20) (BadOrigin) >> fin)
  (start_with [(1, 10000)]).
Proof. replay. Qed.

(** * extrinsics, create_collection *)
Example create_collection : (ok (sg 1) (C_create_collection (c_offchain (mkColl 1 [] [] (Some 5) false)) (c_limit (mkColl 1 [] [] (Some 5) false))) >> 
  now_ (fun s1 => upd (fun s => s <| s_nft ::= fun n => n <| next_coll ::= N.succ |> |>) >> 
  now_ (fun s2 => chk (fun _ => (colls (s_nft s2) !! ((next_coll (s_nft s1)) - 1)) = (Some (mkColl 1 [] [] (Some 5) false))) >> 
  last_ (Ev_CollectionCreated ((next_coll (s_nft s1)) - 1) (c_owner (mkColl 1 [] [] (Some 5) false)) (c_offchain (mkColl 1 [] [] (Some 5) false)) (c_limit (mkColl 1 [] [] (Some 5) false))) >> fin)))
  (start_with [(1, 1000); (2, 1000)]).
Proof. replay. Qed.
Example collection_limit_is_too_high : (no (sg 1) (C_create_collection [] (Some 11)) (Nft_err N_CollectionLimitExceededMaximumAllowed) >> fin)
  (start_with [(1, 1000); (2, 1000)]).
Proof. replay. Qed.

(** * extrinsics, burn_collection *)
Example burn_collection : (ok (sg 1) (C_create_nft [] 1000000 None false) >> ok (sg 1) (C_create_collection [] None) >> 
  ok (sg 2) (C_create_nft [] 1000000 None false) >> ok (sg 2) (C_create_collection [] None) >> 
  now_ (fun s1 => chk (fun _ => (if nfts (s_nft s1) !! 0 then true else false) = true) >> 
  chk (fun _ => (if nfts (s_nft s1) !! 1 then true else false) = true) >> 
  chk (fun _ => (if colls (s_nft s1) !! 0 then true else false) = true) >> 
  chk (fun _ => (if colls (s_nft s1) !! 1 then true else false) = true) >> ok (sg 1) (C_burn_collection 0) >> 
  now_ (fun s2 => chk (fun _ => (if colls (s_nft s2) !! 0 then true else false) = false) >> last_ (Ev_CollectionBurned 0) >> fin)))
  (start_with [(1, 1000); (2, 1000)]).
Proof. replay. Qed.
Example collection_not_found : (ok (sg 1) (C_create_nft [] 1000000 None false) >> ok (sg 1) (C_create_collection [] None) >> 
  ok (sg 2) (C_create_nft [] 1000000 None false) >> ok (sg 2) (C_create_collection [] None) >> 
  now_ (fun s1 => chk (fun _ => (if nfts (s_nft s1) !! 0 then true else false) = true) >> 
  chk (fun _ => (if nfts (s_nft s1) !! 1 then true else false) = true) >> 
  chk (fun _ => (if colls (s_nft s1) !! 0 then true else false) = true) >> 
  chk (fun _ => (if colls (s_nft s1) !! 1 then true else false) = true) >> 
  no (sg 1) (C_burn_collection 1001) (Nft_err N_CollectionNotFound) >> fin))
  (start_with [(1, 1000); (2, 1000)]).
Proof. replay. Qed.
Example burn_collection_not_the_collection_owner : (ok (sg 1) (C_create_nft [] 1000000 None false) >> ok (sg 1) (C_create_collection [] None) >> 
  ok (sg 2) (C_create_nft [] 1000000 None false) >> ok (sg 2) (C_create_collection [] None) >> 
  now_ (fun s1 => chk (fun _ => (if nfts (s_nft s1) !! 0 then true else false) = true) >> 
  chk (fun _ => (if nfts (s_nft s1) !! 1 then true else false) = true) >> 
  chk (fun _ => (if colls (s_nft s1) !! 0 then true else false) = true) >> 
  chk (fun _ => (if colls (s_nft s1) !! 1 then true else false) = true) >> 
  no (sg 1) (C_burn_collection 1) (Nft_err N_NotTheCollectionOwner) >> fin))
  (start_with [(1, 1000); (2, 1000)]).
Proof. replay. Qed.
Example collection_is_not_empty : (ok (sg 1) (C_create_nft [] 1000000 None false) >> ok (sg 1) (C_create_collection [] None) >> 
  ok (sg 2) (C_create_nft [] 1000000 None false) >> ok (sg 2) (C_create_collection [] None) >> 
  now_ (fun s1 => chk (fun _ => (if nfts (s_nft s1) !! 0 then true else false) = true) >> 
  chk (fun _ => (if nfts (s_nft s1) !! 1 then true else false) = true) >> 
  chk (fun _ => (if colls (s_nft s1) !! 0 then true else false) = true) >> 
  chk (fun _ => (if colls (s_nft s1) !! 1 then true else false) = true) >> ok (sg 1) (C_add_nft_to_collection 0 0) >> 
  no (sg 1) (C_burn_collection 0) (Nft_err N_CollectionIsNotEmpty) >> fin))
  (start_with [(1, 1000); (2, 1000)]).
Proof. replay. Qed.

(** * extrinsics, close_collection *)
Example close_collection : (ok (sg 1) (C_create_nft [] 1000000 None false) >> ok (sg 1) (C_create_collection [] None) >> 
  ok (sg 2) (C_create_nft [] 1000000 None false) >> ok (sg 2) (C_create_collection [] None) >> 
  now_ (fun s1 => chk (fun _ => (if nfts (s_nft s1) !! 0 then true else false) = true) >> 
  chk (fun _ => (if nfts (s_nft s1) !! 1 then true else false) = true) >> 
  chk (fun _ => (if colls (s_nft s1) !! 0 then true else false) = true) >> 
  chk (fun _ => (if colls (s_nft s1) !! 1 then true else false) = true) >> ok (sg 1) (C_close_collection 0) >> 
  now_ (fun s2 => chk (fun _ => (if colls (s_nft s2) !! 0 then true else false) = true) >> 
  chk (fun _ => (c_closed (default dcoll (colls (s_nft s2) !! 0))) = true) >> last_ (Ev_CollectionClosed 0) >> fin)))
  (start_with [(1, 1000); (2, 1000)]).
Proof. replay. Qed.
Example close_collection_collection_not_found : (ok (sg 1) (C_create_nft [] 1000000 None false) >> ok (sg 1) (C_create_collection [] None) >> 
  ok (sg 2) (C_create_nft [] 1000000 None false) >> ok (sg 2) (C_create_collection [] None) >> 
  now_ (fun s1 => chk (fun _ => (if nfts (s_nft s1) !! 0 then true else false) = true) >> 
  chk (fun _ => (if nfts (s_nft s1) !! 1 then true else false) = true) >> 
  chk (fun _ => (if colls (s_nft s1) !! 0 then true else false) = true) >> 
  chk (fun _ => (if colls (s_nft s1) !! 1 then true else false) = true) >> 
  no (sg 1) (C_close_collection 1001) (Nft_err N_CollectionNotFound) >> fin))
  (start_with [(1, 1000); (2, 1000)]).
Proof. replay. Qed.
Example close_collection_not_the_collection_owner : (ok (sg 1) (C_create_nft [] 1000000 None false) >> ok (sg 1) (C_create_collection [] None) >> 
  ok (sg 2) (C_create_nft [] 1000000 None false) >> ok (sg 2) (C_create_collection [] None) >> 
  now_ (fun s1 => chk (fun _ => (if nfts (s_nft s1) !! 0 then true else false) = true) >> 
  chk (fun _ => (if nfts (s_nft s1) !! 1 then true else false) = true) >> 
  chk (fun _ => (if colls (s_nft s1) !! 0 then true else false) = true) >> 
  chk (fun _ => (if colls (s_nft s1) !! 1 then true else false) = true) >> 
  no (sg 1) (C_close_collection 1) (Nft_err N_NotTheCollectionOwner) >> fin))
  (start_with [(1, 1000); (2, 1000)]).
Proof. replay. Qed.

(** * extrinsics, limit_collection *)
Example limit_collection : (ok (sg 1) (C_create_nft [] 1000000 None false) >> ok (sg 1) (C_create_collection [] None) >> 
  ok (sg 2) (C_create_nft [] 1000000 None false) >> ok (sg 2) (C_create_collection [] None) >> 
  now_ (fun s1 => chk (fun _ => (if nfts (s_nft s1) !! 0 then true else false) = true) >> 
  chk (fun _ => (if nfts (s_nft s1) !! 1 then true else false) = true) >> 
  chk (fun _ => (if colls (s_nft s1) !! 0 then true else false) = true) >> 
  chk (fun _ => (if colls (s_nft s1) !! 1 then true else false) = true) >> ok (sg 1) (C_limit_collection 0 1) >> 
  now_ (fun s2 => chk (fun _ => (if colls (s_nft s2) !! 0 then true else false) = true) >> 
  chk (fun _ => (c_limit (default dcoll (colls (s_nft s2) !! 0))) = (Some 1)) >> last_ (Ev_CollectionLimited 0 1) >> fin)))
  (start_with [(1, 1000); (2, 1000)]).
Proof. replay. Qed.
Example limit_collection_collection_not_found : (ok (sg 1) (C_create_nft [] 1000000 None false) >> ok (sg 1) (C_create_collection [] None) >> 
  ok (sg 2) (C_create_nft [] 1000000 None false) >> ok (sg 2) (C_create_collection [] None) >> 
  now_ (fun s1 => chk (fun _ => (if nfts (s_nft s1) !! 0 then true else false) = true) >> 
  chk (fun _ => (if nfts (s_nft s1) !! 1 then true else false) = true) >> 
  chk (fun _ => (if colls (s_nft s1) !! 0 then true else false) = true) >> 
  chk (fun _ => (if colls (s_nft s1) !! 1 then true else false) = true) >> 
  no (sg 1) (C_limit_collection 1001 1) (Nft_err N_CollectionNotFound) >> fin))
  (start_with [(1, 1000); (2, 1000)]).
Proof. replay. Qed.
Example limit_collection_not_the_collection_owner : (ok (sg 1) (C_create_nft [] 1000000 None false) >> ok (sg 1) (C_create_collection [] None) >> 
  ok (sg 2) (C_create_nft [] 1000000 None false) >> ok (sg 2) (C_create_collection [] None) >> 
  now_ (fun s1 => chk (fun _ => (if nfts (s_nft s1) !! 0 then true else false) = true) >> 
  chk (fun _ => (if nfts (s_nft s1) !! 1 then true else false) = true) >> 
  chk (fun _ => (if colls (s_nft s1) !! 0 then true else false) = true) >> 
  chk (fun _ => (if colls (s_nft s1) !! 1 then true else false) = true) >> 
  no (sg 1) (C_limit_collection 1 1) (Nft_err N_NotTheCollectionOwner) >> fin))
  (start_with [(1, 1000); (2, 1000)]).
Proof. replay. Qed.
Example collection_limit_already_set : (ok (sg 1) (C_create_nft [] 1000000 None false) >> ok (sg 1) (C_create_collection [] None) >> 
  ok (sg 2) (C_create_nft [] 1000000 None false) >> ok (sg 2) (C_create_collection [] None) >> 
  now_ (fun s1 => chk (fun _ => (if nfts (s_nft s1) !! 0 then true else false) = true) >> 
  chk (fun _ => (if nfts (s_nft s1) !! 1 then true else false) = true) >> 
  chk (fun _ => (if colls (s_nft s1) !! 0 then true else false) = true) >> 
  chk (fun _ => (if colls (s_nft s1) !! 1 then true else false) = true) >> ok (sg 1) (C_limit_collection 0 1) >> 
  no (sg 1) (C_limit_collection 0 2) (Nft_err N_CollectionLimitAlreadySet) >> fin))
  (start_with [(1, 1000); (2, 1000)]).
Proof. replay. Qed.
Example limit_collection_collection_is_closed : (ok (sg 1) (C_create_nft [] 1000000 None false) >> ok (sg 1) (C_create_collection [] None) >> 
  ok (sg 2) (C_create_nft [] 1000000 None false) >> ok (sg 2) (C_create_collection [] None) >> 
  now_ (fun s1 => chk (fun _ => (if nfts (s_nft s1) !! 0 then true else false) = true) >> 
  chk (fun _ => (if nfts (s_nft s1) !! 1 then true else false) = true) >> 
  chk (fun _ => (if colls (s_nft s1) !! 0 then true else false) = true) >> 
  chk (fun _ => (if colls (s_nft s1) !! 1 then true else false) = true) >> ok (sg 1) (C_close_collection 0) >> 
  no (sg 1) (C_limit_collection 0 1) (Nft_err N_CollectionIsClosed) >> fin))
  (start_with [(1, 1000); (2, 1000)]).
Proof. replay. Qed.
Example collection_nfts_number_greater_than_limit : (ok (sg 1) (C_create_nft [] 1000000 None false) >> ok (sg 1) (C_create_collection [] None) >> 
  ok (sg 2) (C_create_nft [] 1000000 None false) >> ok (sg 2) (C_create_collection [] None) >> 
  now_ (fun s1 => chk (fun _ => (if nfts (s_nft s1) !! 0 then true else false) = true) >> 
  chk (fun _ => (if nfts (s_nft s1) !! 1 then true else false) = true) >> 
  chk (fun _ => (if colls (s_nft s1) !! 0 then true else false) = true) >> 
  chk (fun _ => (if colls (s_nft s1) !! 1 then true else false) = true) >> ok (sg 1) (C_add_nft_to_collection 0 0) >> 
  ok (sg 1) (C_create_nft [] 1000000 (Some 0) false) >> no (sg 1) (C_limit_collection 0 1) (Nft_err N_CollectionHasTooManyNFTs) >> fin))
  (start_with [(1, 1000); (2, 1000)]).
Proof. replay. Qed.
Example limit_collection_collection_limit_is_too_high : (ok (sg 1) (C_create_nft [] 1000000 None false) >> ok (sg 1) (C_create_collection [] None) >> 
  ok (sg 2) (C_create_nft [] 1000000 None false) >> ok (sg 2) (C_create_collection [] None) >> 
  now_ (fun s1 => chk (fun _ => (if nfts (s_nft s1) !! 0 then true else false) = true) >> 
  chk (fun _ => (if nfts (s_nft s1) !! 1 then true else false) = true) >> 
  chk (fun _ => (if colls (s_nft s1) !! 0 then true else false) = true) >> 
  chk (fun _ => (if colls (s_nft s1) !! 1 then true else false) = true) >> 
  no (sg 1) (C_limit_collection 0 11) (Nft_err N_CollectionLimitExceededMaximumAllowed) >> fin))
  (start_with [(1, 1000); (2, 1000)]).
Proof. replay. Qed.

(** * extrinsics, add_nft_to_collection *)
Example add_nft_to_collection : (ok (sg 1) (C_create_nft [] 1000000 None false) >> ok (sg 1) (C_create_collection [] None) >> 
  ok (sg 2) (C_create_nft [] 1000000 None false) >> ok (sg 2) (C_create_collection [] None) >> 
  now_ (fun s1 => chk (fun _ => (if nfts (s_nft s1) !! 0 then true else false) = true) >> 
  chk (fun _ => (if nfts (s_nft s1) !! 1 then true else false) = true) >> 
  chk (fun _ => (if colls (s_nft s1) !! 0 then true else false) = true) >> 
  chk (fun _ => (if colls (s_nft s1) !! 1 then true else false) = true) >> 
  chk (fun _ => (if colls (s_nft s1) !! 0 then true else false) = true) >> ok (sg 1) (C_add_nft_to_collection 0 0) >> 
  now_ (fun s2 => chk (fun _ => (if nfts (s_nft s2) !! 0 then true else false) = true) >> 
  chk (fun _ => (collection_id (default dnft (nfts (s_nft s2) !! 0))) = (Some 0)) >> 
  chk (fun _ => (if colls (s_nft s2) !! 0 then true else false) = true) >> 
  chk (fun _ => (default dcoll (colls (s_nft s2) !! 0)) = ((default dcoll (colls (s_nft s1) !! 0)) <| c_nfts := (c_nfts (default dcoll (colls (s_nft s1) !! 0))) ++ [0] |>)) >> 
  last_ (Ev_NFTAddedToCollection 0 0) >> fin)))
  (start_with [(1, 1000); (2, 1000)]).
Proof. replay. Qed.
Example add_nft_to_collection_collection_not_found : (ok (sg 1) (C_create_nft [] 1000000 None false) >> ok (sg 1) (C_create_collection [] None) >> 
  ok (sg 2) (C_create_nft [] 1000000 None false) >> ok (sg 2) (C_create_collection [] None) >> 
  now_ (fun s1 => chk (fun _ => (if nfts (s_nft s1) !! 0 then true else false) = true) >> 
  chk (fun _ => (if nfts (s_nft s1) !! 1 then true else false) = true) >> 
  chk (fun _ => (if colls (s_nft s1) !! 0 then true else false) = true) >> 
  chk (fun _ => (if colls (s_nft s1) !! 1 then true else false) = true) >> 
  no (sg 1) (C_add_nft_to_collection 0 1001) (Nft_err N_CollectionNotFound) >> fin))
  (start_with [(1, 1000); (2, 1000)]).
Proof. replay. Qed.
Example add_nft_to_collection_not_the_collection_owner : (ok (sg 1) (C_create_nft [] 1000000 None false) >> ok (sg 1) (C_create_collection [] None) >> 
  ok (sg 2) (C_create_nft [] 1000000 None false) >> ok (sg 2) (C_create_collection [] None) >> 
  now_ (fun s1 => chk (fun _ => (if nfts (s_nft s1) !! 0 then true else false) = true) >> 
  chk (fun _ => (if nfts (s_nft s1) !! 1 then true else false) = true) >> 
  chk (fun _ => (if colls (s_nft s1) !! 0 then true else false) = true) >> 
  chk (fun _ => (if colls (s_nft s1) !! 1 then true else false) = true) >> 
  no (sg 1) (C_add_nft_to_collection 0 1) (Nft_err N_NotTheCollectionOwner) >> fin))
  (start_with [(1, 1000); (2, 1000)]).
Proof. replay. Qed.
Example add_nft_to_collection_collection_is_closed : (ok (sg 1) (C_create_nft [] 1000000 None false) >> ok (sg 1) (C_create_collection [] None) >> 
  ok (sg 2) (C_create_nft [] 1000000 None false) >> ok (sg 2) (C_create_collection [] None) >> 
  now_ (fun s1 => chk (fun _ => (if nfts (s_nft s1) !! 0 then true else false) = true) >> 
  chk (fun _ => (if nfts (s_nft s1) !! 1 then true else false) = true) >> 
  chk (fun _ => (if colls (s_nft s1) !! 0 then true else false) = true) >> 
  chk (fun _ => (if colls (s_nft s1) !! 1 then true else false) = true) >> ok (sg 1) (C_close_collection 0) >> 
  no (sg 1) (C_add_nft_to_collection 0 0) (Nft_err N_CollectionIsClosed) >> fin))
  (start_with [(1, 1000); (2, 1000)]).
Proof. replay. Qed.
Example add_nft_to_collection_collection_has_reached_max : (ok (sg 1) (C_create_nft [] 1000000 None false) >> ok (sg 1) (C_create_collection [] None) >> 
  ok (sg 2) (C_create_nft [] 1000000 None false) >> ok (sg 2) (C_create_collection [] None) >> 
  now_ (fun s1 => chk (fun _ => (if nfts (s_nft s1) !! 0 then true else false) = true) >> 
  chk (fun _ => (if nfts (s_nft s1) !! 1 then true else false) = true) >> 
  chk (fun _ => (if colls (s_nft s1) !! 0 then true else false) = true) >> 
  chk (fun _ => (if colls (s_nft s1) !! 1 then true else false) = true) >> ok (sg 1) (C_create_nft [] 0 (Some 0) false) >> 
  ok (sg 1) (C_create_nft [] 0 (Some 0) false) >> ok (sg 1) (C_create_nft [] 0 (Some 0) false) >> 
  ok (sg 1) (C_create_nft [] 0 (Some 0) false) >> ok (sg 1) (C_create_nft [] 0 (Some 0) false) >> 
  ok (sg 1) (C_create_nft [] 0 (Some 0) false) >> ok (sg 1) (C_create_nft [] 0 (Some 0) false) >> 
  ok (sg 1) (C_create_nft [] 0 (Some 0) false) >> ok (sg 1) (C_create_nft [] 0 (Some 0) false) >> 
  ok (sg 1) (C_create_nft [] 0 (Some 0) false) >> no (sg 1) (C_add_nft_to_collection 0 0) (Nft_err N_CollectionHasReachedLimit) >> fin))
  (start_with [(1, 1000); (2, 1000)]).
Proof. replay. Qed.
Example add_nft_to_collection_collection_has_reached_limit : (ok (sg 1) (C_create_nft [] 1000000 None false) >> ok (sg 1) (C_create_collection [] None) >> 
  ok (sg 2) (C_create_nft [] 1000000 None false) >> ok (sg 2) (C_create_collection [] None) >> 
  now_ (fun s1 => chk (fun _ => (if nfts (s_nft s1) !! 0 then true else false) = true) >> 
  chk (fun _ => (if nfts (s_nft s1) !! 1 then true else false) = true) >> 
  chk (fun _ => (if colls (s_nft s1) !! 0 then true else false) = true) >> 
  chk (fun _ => (if colls (s_nft s1) !! 1 then true else false) = true) >> ok (sg 1) (C_limit_collection 0 5) >> 
  ok (sg 1) (C_create_nft [] 0 (Some 0) false) >> ok (sg 1) (C_create_nft [] 0 (Some 0) false) >> 
  ok (sg 1) (C_create_nft [] 0 (Some 0) false) >> ok (sg 1) (C_create_nft [] 0 (Some 0) false) >> 
  ok (sg 1) (C_create_nft [] 0 (Some 0) false) >> no (sg 1) (C_add_nft_to_collection 0 0) (Nft_err N_CollectionHasReachedLimit) >> fin))
  (start_with [(1, 1000); (2, 1000)]).
Proof. replay. Qed.
Example add_nft_to_collection_nft_not_found : (ok (sg 1) (C_create_nft [] 1000000 None false) >> ok (sg 1) (C_create_collection [] None) >> 
  ok (sg 2) (C_create_nft [] 1000000 None false) >> ok (sg 2) (C_create_collection [] None) >> 
  now_ (fun s1 => chk (fun _ => (if nfts (s_nft s1) !! 0 then true else false) = true) >> 
  chk (fun _ => (if nfts (s_nft s1) !! 1 then true else false) = true) >> 
  chk (fun _ => (if colls (s_nft s1) !! 0 then true else false) = true) >> 
  chk (fun _ => (if colls (s_nft s1) !! 1 then true else false) = true) >> 
  no (sg 1) (C_add_nft_to_collection 1001 0) (Nft_err N_NFTNotFound) >> fin))
  (start_with [(1, 1000); (2, 1000)]).
Proof. replay. Qed.
Example add_nft_to_collection_not_the_nft_owner : (ok (sg 1) (C_create_nft [] 1000000 None false) >> ok (sg 1) (C_create_collection [] None) >> 
  ok (sg 2) (C_create_nft [] 1000000 None false) >> ok (sg 2) (C_create_collection [] None) >> 
  now_ (fun s1 => chk (fun _ => (if nfts (s_nft s1) !! 0 then true else false) = true) >> 
  chk (fun _ => (if nfts (s_nft s1) !! 1 then true else false) = true) >> 
  chk (fun _ => (if colls (s_nft s1) !! 0 then true else false) = true) >> 
  chk (fun _ => (if colls (s_nft s1) !! 1 then true else false) = true) >> 
  no (sg 1) (C_add_nft_to_collection 1 0) (Nft_err N_NotTheNFTOwner) >> fin))
  (start_with [(1, 1000); (2, 1000)]).
Proof. replay. Qed.
Example nft_belong_to_a_collection : (ok (sg 1) (C_create_nft [] 1000000 None false) >> ok (sg 1) (C_create_collection [] None) >> 
  ok (sg 2) (C_create_nft [] 1000000 None false) >> ok (sg 2) (C_create_collection [] None) >> 
  now_ (fun s1 => chk (fun _ => (if nfts (s_nft s1) !! 0 then true else false) = true) >> 
  chk (fun _ => (if nfts (s_nft s1) !! 1 then true else false) = true) >> 
  chk (fun _ => (if colls (s_nft s1) !! 0 then true else false) = true) >> 
  chk (fun _ => (if colls (s_nft s1) !! 1 then true else false) = true) >> ok (sg 1) (C_add_nft_to_collection 0 0) >> 
  ok (sg 1) (C_create_collection [] None) >> 
  now_ (fun s2 => upd (fun s => s <| s_nft ::= fun n => n <| next_coll ::= N.succ |> |>) >> 
  no (sg 1) (C_add_nft_to_collection 0 ((next_coll (s_nft s2)) - 1)) (Nft_err N_NFTBelongToACollection) >> fin)))
  (start_with [(1, 1000); (2, 1000)]).
Proof. replay. Qed.

(** * extrinsics, add_secret *)
Example add_secret : (ok (sg 1) (C_create_nft [] 1000000 None false) >> ok (sg 1) (C_create_collection [] None) >> 
  ok (sg 2) (C_create_nft [] 1000000 None false) >> ok (sg 2) (C_create_collection [] None) >> 
  now_ (fun s1 => chk (fun _ => (if nfts (s_nft s1) !! 0 then true else false) = true) >> 
  chk (fun _ => (if nfts (s_nft s1) !! 1 then true else false) = true) >> 
  chk (fun _ => (if colls (s_nft s1) !! 0 then true else false) = true) >> 
  chk (fun _ => (if colls (s_nft s1) !! 1 then true else false) = true) >> ok (sg 1) (C_add_secret 0 []) >> 
  now_ (fun s2 => chk (fun _ => (if nfts (s_nft s2) !! 0 then true else false) = true) >> 
  chk (fun _ => (if secret_data (s_nft s2) !! 0 then true else false) = true) >> 
  chk (fun _ => (is_secret (nstate (default dnft (nfts (s_nft s2) !! 0)))) = true) >> 
  chk (fun _ => (is_syncing_secret (nstate (default dnft (nfts (s_nft s2) !! 0)))) = true) >> 
  chk (fun _ => (default [] (secret_data (s_nft s2) !! 0)) = []) >> last_ (Ev_SecretAddedToNFT 0 []) >> fin)))
  (start_with [(1, 1000); (2, 1000)]).
Proof. replay. Qed.
Example add_secret_nft_not_found : (ok (sg 1) (C_create_nft [] 1000000 None false) >> ok (sg 1) (C_create_collection [] None) >> 
  ok (sg 2) (C_create_nft [] 1000000 None false) >> ok (sg 2) (C_create_collection [] None) >> 
  now_ (fun s1 => chk (fun _ => (if nfts (s_nft s1) !! 0 then true else false) = true) >> 
  chk (fun _ => (if nfts (s_nft s1) !! 1 then true else false) = true) >> 
  chk (fun _ => (if colls (s_nft s1) !! 0 then true else false) = true) >> 
  chk (fun _ => (if colls (s_nft s1) !! 1 then true else false) = true) >> 
  no (sg 1) (C_add_secret 1001 []) (Nft_err N_NFTNotFound) >> fin))
  (start_with [(1, 1000); (2, 1000)]).
Proof. replay. Qed.
Example add_secret_not_the_nft_owner : (ok (sg 1) (C_create_nft [] 1000000 None false) >> ok (sg 1) (C_create_collection [] None) >> 
  ok (sg 2) (C_create_nft [] 1000000 None false) >> ok (sg 2) (C_create_collection [] None) >> 
  now_ (fun s1 => chk (fun _ => (if nfts (s_nft s1) !! 0 then true else false) = true) >> 
  chk (fun _ => (if nfts (s_nft s1) !! 1 then true else false) = true) >> 
  chk (fun _ => (if colls (s_nft s1) !! 0 then true else false) = true) >> 
  chk (fun _ => (if colls (s_nft s1) !! 1 then true else false) = true) >> 
  no (sg 1) (C_add_secret 1 []) (Nft_err N_NotTheNFTOwner) >> fin))
  (start_with [(1, 1000); (2, 1000)]).
Proof. replay. Qed.
Example cannot_add_secret_to_listed_nfts : (ok (sg 1) (C_create_nft [] 1000000 None false) >> ok (sg 1) (C_create_collection [] None) >> 
  ok (sg 2) (C_create_nft [] 1000000 None false) >> ok (sg 2) (C_create_collection [] None) >> 
  now_ (fun s1 => chk (fun _ => (if nfts (s_nft s1) !! 0 then true else false) = true) >> 
  chk (fun _ => (if nfts (s_nft s1) !! 1 then true else false) = true) >> 
  chk (fun _ => (if colls (s_nft s1) !! 0 then true else false) = true) >> 
  chk (fun _ => (if colls (s_nft s1) !! 1 then true else false) = true) >> 
  flag 0 (fun _ => mkNftState false true false false false false false false false) >> 
  no (sg 1) (C_add_secret 0 []) (Nft_err N_CannotAddSecretToListedNFTs) >> fin))
  (start_with [(1, 1000); (2, 1000)]).
Proof. replay. Qed.
Example cannot_add_secret_to_secret_nfts : (ok (sg 1) (C_create_nft [] 1000000 None false) >> ok (sg 1) (C_create_collection [] None) >> 
  ok (sg 2) (C_create_nft [] 1000000 None false) >> ok (sg 2) (C_create_collection [] None) >> 
  now_ (fun s1 => chk (fun _ => (if nfts (s_nft s1) !! 0 then true else false) = true) >> 
  chk (fun _ => (if nfts (s_nft s1) !! 1 then true else false) = true) >> 
  chk (fun _ => (if colls (s_nft s1) !! 0 then true else false) = true) >> 
  chk (fun _ => (if colls (s_nft s1) !! 1 then true else false) = true) >> 
  flag 0 (fun _ => mkNftState false false true false false false false false false) >> 
  no (sg 1) (C_add_secret 0 []) (Nft_err N_CannotAddSecretToSecretNFTs) >> fin))
  (start_with [(1, 1000); (2, 1000)]).
Proof. replay. Qed.
Example cannot_add_secret_to_rented_nfts : (ok (sg 1) (C_create_nft [] 1000000 None false) >> ok (sg 1) (C_create_collection [] None) >> 
  ok (sg 2) (C_create_nft [] 1000000 None false) >> ok (sg 2) (C_create_collection [] None) >> 
  now_ (fun s1 => chk (fun _ => (if nfts (s_nft s1) !! 0 then true else false) = true) >> 
  chk (fun _ => (if nfts (s_nft s1) !! 1 then true else false) = true) >> 
  chk (fun _ => (if colls (s_nft s1) !! 0 then true else false) = true) >> 
  chk (fun _ => (if colls (s_nft s1) !! 1 then true else false) = true) >> 
  flag 0 (fun _ => mkNftState false false false false false false true false false) >> 
  no (sg 1) (C_add_secret 0 []) (Nft_err N_CannotAddSecretToRentedNFTs) >> fin))
  (start_with [(1, 1000); (2, 1000)]).
Proof. replay. Qed.
Example cannot_add_secret_to_delegated_nfts : (ok (sg 1) (C_create_nft [] 1000000 None false) >> ok (sg 1) (C_create_collection [] None) >> 
  ok (sg 2) (C_create_nft [] 1000000 None false) >> ok (sg 2) (C_create_collection [] None) >> 
  now_ (fun s1 => chk (fun _ => (if nfts (s_nft s1) !! 0 then true else false) = true) >> 
  chk (fun _ => (if nfts (s_nft s1) !! 1 then true else false) = true) >> 
  chk (fun _ => (if colls (s_nft s1) !! 0 then true else false) = true) >> 
  chk (fun _ => (if colls (s_nft s1) !! 1 then true else false) = true) >> 
  flag 0 (fun _ => mkNftState false false false true false false false false false) >> 
  no (sg 1) (C_add_secret 0 []) (Nft_err N_CannotAddSecretToDelegatedNFTs) >> fin))
  (start_with [(1, 1000); (2, 1000)]).
Proof. replay. Qed.
Example cannot_add_secret_to_syncing_capsules : (ok (sg 1) (C_create_nft [] 1000000 None false) >> ok (sg 1) (C_create_collection [] None) >> 
  ok (sg 2) (C_create_nft [] 1000000 None false) >> ok (sg 2) (C_create_collection [] None) >> 
  now_ (fun s1 => chk (fun _ => (if nfts (s_nft s1) !! 0 then true else false) = true) >> 
  chk (fun _ => (if nfts (s_nft s1) !! 1 then true else false) = true) >> 
  chk (fun _ => (if colls (s_nft s1) !! 0 then true else false) = true) >> 
  chk (fun _ => (if colls (s_nft s1) !! 1 then true else false) = true) >> 
  flag 0 (fun _ => mkNftState true false false false false false false true false) >> 
  no (sg 1) (C_add_secret 0 []) (Nft_err N_CannotAddSecretToSyncingCapsules) >> fin))
  (start_with [(1, 1000); (2, 1000)]).
Proof. replay. Qed.
Example cannot_add_secret_to_nfts_in_transmission : (ok (sg 1) (C_create_nft [] 1000000 None false) >> ok (sg 1) (C_create_collection [] None) >> 
  ok (sg 2) (C_create_nft [] 1000000 None false) >> ok (sg 2) (C_create_collection [] None) >> 
  now_ (fun s1 => chk (fun _ => (if nfts (s_nft s1) !! 0 then true else false) = true) >> 
  chk (fun _ => (if nfts (s_nft s1) !! 1 then true else false) = true) >> 
  chk (fun _ => (if colls (s_nft s1) !! 0 then true else false) = true) >> 
  chk (fun _ => (if colls (s_nft s1) !! 1 then true else false) = true) >> 
  flag 0 (fun _ => mkNftState false false false false false false false false true) >> 
  no (sg 1) (C_add_secret 0 []) (Nft_err N_CannotAddSecretToNFTsInTransmission) >> fin))
  (start_with [(1, 1000); (2, 1000)]).
Proof. replay. Qed.
Example not_enough_balance : (ok (sg 1) (C_create_nft [] 1000000 None false) >> ok (sg 1) (C_create_collection [] None) >> 
  ok (sg 2) (C_create_nft [] 1000000 None false) >> ok (sg 2) (C_create_collection [] None) >> 
  now_ (fun s1 => chk (fun _ => (if nfts (s_nft s1) !! 0 then true else false) = true) >> 
  chk (fun _ => (if nfts (s_nft s1) !! 1 then true else false) = true) >> 
  chk (fun _ => (if colls (s_nft s1) !! 0 then true else false) = true) >> 
  chk (fun _ => (if colls (s_nft s1) !! 1 then true else false) = true) >> set_bal 1 0 >> 
  no (sg 1) (C_add_secret 0 []) (Balances_InsufficientBalance) >> fin))
  (start_with [(1, 1000); (2, 1000)]).
Proof. replay. Qed.

(** * extrinsics, create_secret_nft *)
Example create_secret_nft : (
  now_ (fun s1 => 
  ok (sg 1) (C_create_secret_nft (offchain_data (((mkNft 1 1 [] None 1000000 (mkNftState false false false false false false false false false)) <| nstate := (nstate (mkNft 1 1 [] None 1000000 (mkNftState false false false false false false false false false))) <| is_secret := true |> |>) <| nstate := (nstate ((mkNft 1 1 [] None 1000000 (mkNftState false false false false false false false false false)) <| nstate := (nstate (mkNft 1 1 [] None 1000000 (mkNftState false false false false false false false false false))) <| is_secret := true |> |>)) <| is_syncing_secret := true |> |>)) [] (royalty (((mkNft 1 1 [] None 1000000 (mkNftState false false false false false false false false false)) <| nstate := (nstate (mkNft 1 1 [] None 1000000 (mkNftState false false false false false false false false false))) <| is_secret := true |> |>) <| nstate := (nstate ((mkNft 1 1 [] None 1000000 (mkNftState false false false false false false false false false)) <| nstate := (nstate (mkNft 1 1 [] None 1000000 (mkNftState false false false false false false false false false))) <| is_secret := true |> |>)) <| is_syncing_secret := true |> |>)) (collection_id (((mkNft 1 1 [] None 1000000 (mkNftState false false false false false false false false false)) <| nstate := (nstate (mkNft 1 1 [] None 1000000 (mkNftState false false false false false false false false false))) <| is_secret := true |> |>) <| nstate := (nstate ((mkNft 1 1 [] None 1000000 (mkNftState false false false false false false false false false)) <| nstate := (nstate (mkNft 1 1 [] None 1000000 (mkNftState false false false false false false false false false))) <| is_secret := true |> |>)) <| is_syncing_secret := true |> |>)) (is_soulbound (nstate (((mkNft 1 1 [] None 1000000 (mkNftState false false false false false false false false false)) <| nstate := (nstate (mkNft 1 1 [] None 1000000 (mkNftState false false false false false false false false false))) <| is_secret := true |> |>) <| nstate := (nstate ((mkNft 1 1 [] None 1000000 (mkNftState false false false false false false false false false)) <| nstate := (nstate (mkNft 1 1 [] None 1000000 (mkNftState false false false false false false false false false))) <| is_secret := true |> |>)) <| is_syncing_secret := true |> |>)))) >> 
  now_ (fun s2 => upd (fun s => s <| s_nft ::= fun n => n <| next_nft ::= N.succ |> |>) >> 
  now_ (fun s3 => chk (fun _ => (if secret_data (s_nft s3) !! ((next_nft (s_nft s2)) - 1) then true else false) = true) >> 
  chk (fun _ => (nfts (s_nft s3) !! ((next_nft (s_nft s2)) - 1)) = (Some (((mkNft 1 1 [] None 1000000 (mkNftState false false false false false false false false false)) <| nstate := (nstate (mkNft 1 1 [] None 1000000 (mkNftState false false false false false false false false false))) <| is_secret := true |> |>) <| nstate := (nstate ((mkNft 1 1 [] None 1000000 (mkNftState false false false false false false false false false)) <| nstate := (nstate (mkNft 1 1 [] None 1000000 (mkNftState false false false false false false false false false))) <| is_secret := true |> |>)) <| is_syncing_secret := true |> |>))) >> 
  chk (fun _ => (bal 1 s3) = (((bal 1 s1) - (mint_fee (s_nft s3))) - (secret_fee (s_nft s3)))) >> 
  chk (fun _ => (default [] (secret_data (s_nft s3) !! ((next_nft (s_nft s2)) - 1))) = []) >> 
  has_ (Ev_NFTCreated ((next_nft (s_nft s2)) - 1) (owner (((mkNft 1 1 [] None 1000000 (mkNftState false false false false false false false false false)) <| nstate := (nstate (mkNft 1 1 [] None 1000000 (mkNftState false false false false false false false false false))) <| is_secret := true |> |>) <| nstate := (nstate ((mkNft 1 1 [] None 1000000 (mkNftState false false false false false false false false false)) <| nstate := (nstate (mkNft 1 1 [] None 1000000 (mkNftState false false false false false false false false false))) <| is_secret := true |> |>)) <| is_syncing_secret := true |> |>)) (offchain_data (((mkNft 1 1 [] None 1000000 (mkNftState false false false false false false false false false)) <| nstate := (nstate (mkNft 1 1 [] None 1000000 (mkNftState false false false false false false false false false))) <| is_secret := true |> |>) <| nstate := (nstate ((mkNft 1 1 [] None 1000000 (mkNftState false false false false false false false false false)) <| nstate := (nstate (mkNft 1 1 [] None 1000000 (mkNftState false false false false false false false false false))) <| is_secret := true |> |>)) <| is_syncing_secret := true |> |>)) (royalty (((mkNft 1 1 [] None 1000000 (mkNftState false false false false false false false false false)) <| nstate := (nstate (mkNft 1 1 [] None 1000000 (mkNftState false false false false false false false false false))) <| is_secret := true |> |>) <| nstate := (nstate ((mkNft 1 1 [] None 1000000 (mkNftState false false false false false false false false false)) <| nstate := (nstate (mkNft 1 1 [] None 1000000 (mkNftState false false false false false false false false false))) <| is_secret := true |> |>)) <| is_syncing_secret := true |> |>)) (collection_id (((mkNft 1 1 [] None 1000000 (mkNftState false false false false false false false false false)) <| nstate := (nstate (mkNft 1 1 [] None 1000000 (mkNftState false false false false false false false false false))) <| is_secret := true |> |>) <| nstate := (nstate ((mkNft 1 1 [] None 1000000 (mkNftState false false false false false false false false false)) <| nstate := (nstate (mkNft 1 1 [] None 1000000 (mkNftState false false false false false false false false false))) <| is_secret := true |> |>)) <| is_syncing_secret := true |> |>)) (is_soulbound (nstate (((mkNft 1 1 [] None 1000000 (mkNftState false false false false false false false false false)) <| nstate := (nstate (mkNft 1 1 [] None 1000000 (mkNftState false false false false false false false false false))) <| is_secret := true |> |>) <| nstate := (nstate ((mkNft 1 1 [] None 1000000 (mkNftState false false false false false false false false false)) <| nstate := (nstate (mkNft 1 1 [] None 1000000 (mkNftState false false false false false false false false false))) <| is_secret := true |> |>)) <| is_syncing_secret := true |> |>))) (mint_fee (s_nft s3))) >> 
  last_ (Ev_SecretAddedToNFT ((next_nft (s_nft s2)) - 1) []) >> fin))))
  (start_with [(1, 1000)]).
Proof. replay. Qed.
Example create_secret_nft_insufficient_balance : (no (sg 1) (C_create_secret_nft [] [] 0 None false) (Nft_err N_InsufficientBalance) >> fin)
  (start_with [(1, 11)]).
Proof. replay. Qed.
Example create_secret_nft_keep_alive : (ok (sg 1) (C_create_nft [] 1000000 None false) >> ok (sg 1) (C_create_collection [] None) >> 
  ok (sg 2) (C_create_nft [] 1000000 None false) >> ok (sg 2) (C_create_collection [] None) >> 
  now_ (fun s1 => chk (fun _ => (if nfts (s_nft s1) !! 0 then true else false) = true) >> 
  chk (fun _ => (if nfts (s_nft s1) !! 1 then true else false) = true) >> 
  chk (fun _ => (if colls (s_nft s1) !! 0 then true else false) = true) >> 
  chk (fun _ => (if colls (s_nft s1) !! 1 then true else false) = true) >> 
  no (sg 1) (C_create_secret_nft [] [] 0 None false) (Balances_KeepAlive) >> chk (fun _ => (bal 1 s1) = (bal 1 s1)) >> fin))
  (start_with [(1, 95); (2, 1000)]).
Proof. replay. Qed.

(** * extrinsics, add_secret_shard *)
Example add_secret_shard : (ok (sg 1) (C_create_nft [] 1000000 None false) >> ok (sg 1) (C_create_collection [] None) >> 
  ok (sg 2) (C_create_nft [] 1000000 None false) >> ok (sg 2) (C_create_collection [] None) >> 
  now_ (fun s1 => chk (fun _ => (if nfts (s_nft s1) !! 0 then true else false) = true) >> 
  chk (fun _ => (if nfts (s_nft s1) !! 1 then true else false) = true) >> 
  chk (fun _ => (if colls (s_nft s1) !! 0 then true else false) = true) >> 
  chk (fun _ => (if colls (s_nft s1) !! 1 then true else false) = true) >> upd (fun s => s <| s_era := Some 1 |>) >> 
  ok (sg 1) (C_register_enclave 4 [116; 101; 115; 116]) >> ok (sg 2) (C_register_enclave 5 [116; 101; 115; 116]) >> 
  ok (sg 3) (C_register_enclave 6 [116; 101; 115; 116]) >> ok Root (C_create_cluster ClPublic) >> 
  ok Root (C_create_cluster ClPublic) >> ok Root (C_assign_enclave 1 0 0) >> ok Root (C_assign_enclave 2 0 1) >> 
  ok Root (C_assign_enclave 3 1 2) >> ok (sg 1) (C_add_secret 0 []) >> ok (sg 4) (C_add_secret_shard 0) >> 
  now_ (fun s2 => chk (fun _ => (if nfts (s_nft s2) !! 0 then true else false) = true) >> 
  chk (fun _ => (if secret_shards (s_nft s2) !! 0 then true else false) = true) >> 
  chk (fun _ => (is_secret (nstate (default dnft (nfts (s_nft s2) !! 0)))) = true) >> 
  chk (fun _ => (is_syncing_secret (nstate (default dnft (nfts (s_nft s2) !! 0)))) = true) >> 
  chk (fun _ => (nlen (default [] (secret_shards (s_nft s2) !! 0))) = 1) >> 
  chk (fun _ => (existsb (fun x => bool_decide (x = (0, 1))) (default [] (secret_shards (s_nft s2) !! 0))) = true) >> 
  last_ (Ev_ShardAdded 0 4) >> fin)))
  (start_with [(1, 1000); (2, 1000); (3, 1000)]).
Proof. replay. Qed.
Example add_last_secret_shard : (ok (sg 1) (C_create_nft [] 1000000 None false) >> ok (sg 1) (C_create_collection [] None) >> 
  ok (sg 2) (C_create_nft [] 1000000 None false) >> ok (sg 2) (C_create_collection [] None) >> 
  now_ (fun s1 => chk (fun _ => (if nfts (s_nft s1) !! 0 then true else false) = true) >> 
  chk (fun _ => (if nfts (s_nft s1) !! 1 then true else false) = true) >> 
  chk (fun _ => (if colls (s_nft s1) !! 0 then true else false) = true) >> 
  chk (fun _ => (if colls (s_nft s1) !! 1 then true else false) = true) >> upd (fun s => s <| s_era := Some 1 |>) >> 
  ok (sg 1) (C_register_enclave 4 [116; 101; 115; 116]) >> ok (sg 2) (C_register_enclave 5 [116; 101; 115; 116]) >> 
  ok (sg 3) (C_register_enclave 6 [116; 101; 115; 116]) >> ok Root (C_create_cluster ClPublic) >> 
  ok Root (C_create_cluster ClPublic) >> ok Root (C_assign_enclave 1 0 0) >> ok Root (C_assign_enclave 2 0 1) >> 
  ok Root (C_assign_enclave 3 1 2) >> ok (sg 1) (C_add_secret 0 []) >> ok (sg 4) (C_add_secret_shard 0) >> 
  ok (sg 5) (C_add_secret_shard 0) >> 
  now_ (fun s2 => chk (fun _ => (if nfts (s_nft s2) !! 0 then true else false) = true) >> 
  chk (fun _ => (is_secret (nstate (default dnft (nfts (s_nft s2) !! 0)))) = true) >> 
  chk (fun _ => (is_syncing_secret (nstate (default dnft (nfts (s_nft s2) !! 0)))) = false) >> 
  chk (fun _ => (secret_shards (s_nft s2) !! 0) = None) >> has_ (Ev_ShardAdded 0 4) >> last_ (Ev_SecretNFTSynced 0) >> fin)))
  (start_with [(1, 1000); (2, 1000); (3, 1000)]).
Proof. replay. Qed.
Example not_a_registered_enclave : (ok (sg 1) (C_create_nft [] 1000000 None false) >> ok (sg 1) (C_create_collection [] None) >> 
  ok (sg 2) (C_create_nft [] 1000000 None false) >> ok (sg 2) (C_create_collection [] None) >> 
  now_ (fun s1 => chk (fun _ => (if nfts (s_nft s1) !! 0 then true else false) = true) >> 
  chk (fun _ => (if nfts (s_nft s1) !! 1 then true else false) = true) >> 
  chk (fun _ => (if colls (s_nft s1) !! 0 then true else false) = true) >> 
  chk (fun _ => (if colls (s_nft s1) !! 1 then true else false) = true) >> ok (sg 1) (C_add_secret 0 []) >> 
  no (sg 1) (C_add_secret_shard 0) (Nft_err N_NotARegisteredEnclave) >> fin))
  (start_with [(1, 1000); (2, 1000)]).
Proof. replay. Qed.
Example add_secret_shard_nft_not_found : (ok (sg 1) (C_create_nft [] 1000000 None false) >> ok (sg 1) (C_create_collection [] None) >> 
  ok (sg 2) (C_create_nft [] 1000000 None false) >> ok (sg 2) (C_create_collection [] None) >> 
  now_ (fun s1 => chk (fun _ => (if nfts (s_nft s1) !! 0 then true else false) = true) >> 
  chk (fun _ => (if nfts (s_nft s1) !! 1 then true else false) = true) >> 
  chk (fun _ => (if colls (s_nft s1) !! 0 then true else false) = true) >> 
  chk (fun _ => (if colls (s_nft s1) !! 1 then true else false) = true) >> upd (fun s => s <| s_era := Some 1 |>) >> 
  ok (sg 1) (C_register_enclave 4 [116; 101; 115; 116]) >> ok (sg 2) (C_register_enclave 5 [116; 101; 115; 116]) >> 
  ok (sg 3) (C_register_enclave 6 [116; 101; 115; 116]) >> ok Root (C_create_cluster ClPublic) >> 
  ok Root (C_create_cluster ClPublic) >> ok Root (C_assign_enclave 1 0 0) >> ok Root (C_assign_enclave 2 0 1) >> 
  ok Root (C_assign_enclave 3 1 2) >> no (sg 4) (C_add_secret_shard 1001) (Nft_err N_NFTNotFound) >> fin))
  (start_with [(1, 1000); (2, 1000); (3, 1000)]).
Proof. replay. Qed.
Example share_not_from_valid_cluster : (ok (sg 1) (C_create_nft [] 1000000 None false) >> ok (sg 1) (C_create_collection [] None) >> 
  ok (sg 2) (C_create_nft [] 1000000 None false) >> ok (sg 2) (C_create_collection [] None) >> 
  now_ (fun s1 => chk (fun _ => (if nfts (s_nft s1) !! 0 then true else false) = true) >> 
  chk (fun _ => (if nfts (s_nft s1) !! 1 then true else false) = true) >> 
  chk (fun _ => (if colls (s_nft s1) !! 0 then true else false) = true) >> 
  chk (fun _ => (if colls (s_nft s1) !! 1 then true else false) = true) >> upd (fun s => s <| s_era := Some 1 |>) >> 
  ok (sg 1) (C_register_enclave 4 [116; 101; 115; 116]) >> ok (sg 2) (C_register_enclave 5 [116; 101; 115; 116]) >> 
  ok (sg 3) (C_register_enclave 6 [116; 101; 115; 116]) >> ok Root (C_create_cluster ClPublic) >> 
  ok Root (C_create_cluster ClPublic) >> ok Root (C_assign_enclave 1 0 0) >> ok Root (C_assign_enclave 2 0 1) >> 
  ok Root (C_assign_enclave 3 1 2) >> ok (sg 1) (C_add_secret 0 []) >> ok (sg 4) (C_add_secret_shard 0) >> 
  no (sg 6) (C_add_secret_shard 0) (Nft_err N_ShareNotFromValidCluster) >> fin))
  (start_with [(1, 1000); (2, 1000); (3, 1000)]).
Proof. replay. Qed.
Example nft_is_not_secret : (ok (sg 1) (C_create_nft [] 1000000 None false) >> ok (sg 1) (C_create_collection [] None) >> 
  ok (sg 2) (C_create_nft [] 1000000 None false) >> ok (sg 2) (C_create_collection [] None) >> 
  now_ (fun s1 => chk (fun _ => (if nfts (s_nft s1) !! 0 then true else false) = true) >> 
  chk (fun _ => (if nfts (s_nft s1) !! 1 then true else false) = true) >> 
  chk (fun _ => (if colls (s_nft s1) !! 0 then true else false) = true) >> 
  chk (fun _ => (if colls (s_nft s1) !! 1 then true else false) = true) >> upd (fun s => s <| s_era := Some 1 |>) >> 
  ok (sg 1) (C_register_enclave 4 [116; 101; 115; 116]) >> ok (sg 2) (C_register_enclave 5 [116; 101; 115; 116]) >> 
  ok (sg 3) (C_register_enclave 6 [116; 101; 115; 116]) >> ok Root (C_create_cluster ClPublic) >> 
  ok Root (C_create_cluster ClPublic) >> ok Root (C_assign_enclave 1 0 0) >> ok Root (C_assign_enclave 2 0 1) >> 
  ok Root (C_assign_enclave 3 1 2) >> no (sg 4) (C_add_secret_shard 0) (Nft_err N_NFTIsNotSecret) >> fin))
  (start_with [(1, 1000); (2, 1000); (3, 1000)]).
Proof. replay. Qed.
Example nft_already_synced : (ok (sg 1) (C_create_nft [] 1000000 None false) >> ok (sg 1) (C_create_collection [] None) >> 
  ok (sg 2) (C_create_nft [] 1000000 None false) >> ok (sg 2) (C_create_collection [] None) >> 
  now_ (fun s1 => chk (fun _ => (if nfts (s_nft s1) !! 0 then true else false) = true) >> 
  chk (fun _ => (if nfts (s_nft s1) !! 1 then true else false) = true) >> 
  chk (fun _ => (if colls (s_nft s1) !! 0 then true else false) = true) >> 
  chk (fun _ => (if colls (s_nft s1) !! 1 then true else false) = true) >> upd (fun s => s <| s_era := Some 1 |>) >> 
  ok (sg 1) (C_register_enclave 4 [116; 101; 115; 116]) >> ok (sg 2) (C_register_enclave 5 [116; 101; 115; 116]) >> 
  ok (sg 3) (C_register_enclave 6 [116; 101; 115; 116]) >> ok Root (C_create_cluster ClPublic) >> 
  ok Root (C_create_cluster ClPublic) >> ok Root (C_assign_enclave 1 0 0) >> ok Root (C_assign_enclave 2 0 1) >> 
  ok Root (C_assign_enclave 3 1 2) >> ok (sg 1) (C_add_secret 0 []) >> ok (sg 4) (C_add_secret_shard 0) >> 
  ok (sg 5) (C_add_secret_shard 0) >> no (sg 4) (C_add_secret_shard 0) (Nft_err N_NFTAlreadySynced) >> fin))
  (start_with [(1, 1000); (2, 1000); (3, 1000)]).
Proof. replay. Qed.
Example enclave_already_added_shard : (ok (sg 1) (C_create_nft [] 1000000 None false) >> ok (sg 1) (C_create_collection [] None) >> 
  ok (sg 2) (C_create_nft [] 1000000 None false) >> ok (sg 2) (C_create_collection [] None) >> 
  now_ (fun s1 => chk (fun _ => (if nfts (s_nft s1) !! 0 then true else false) = true) >> 
  chk (fun _ => (if nfts (s_nft s1) !! 1 then true else false) = true) >> 
  chk (fun _ => (if colls (s_nft s1) !! 0 then true else false) = true) >> 
  chk (fun _ => (if colls (s_nft s1) !! 1 then true else false) = true) >> upd (fun s => s <| s_era := Some 1 |>) >> 
  ok (sg 1) (C_register_enclave 4 [116; 101; 115; 116]) >> ok (sg 2) (C_register_enclave 5 [116; 101; 115; 116]) >> 
  ok (sg 3) (C_register_enclave 6 [116; 101; 115; 116]) >> ok Root (C_create_cluster ClPublic) >> 
  ok Root (C_create_cluster ClPublic) >> ok Root (C_assign_enclave 1 0 0) >> ok Root (C_assign_enclave 2 0 1) >> 
  ok Root (C_assign_enclave 3 1 2) >> ok (sg 1) (C_add_secret 0 []) >> ok (sg 4) (C_add_secret_shard 0) >> 
  no (sg 4) (C_add_secret_shard 0) (Nft_err N_EnclaveAlreadyAddedShard) >> fin))
  (start_with [(1, 1000); (2, 1000); (3, 1000)]).
Proof. replay. Qed.

(** * extrinsics, set_secret_nft_mint_fee *)
Example set_secret_nft_mint_fee : (ok (sg 1) (C_create_nft [] 1000000 None false) >> ok (sg 1) (C_create_collection [] None) >> 
  ok (sg 2) (C_create_nft [] 1000000 None false) >> ok (sg 2) (C_create_collection [] None) >> 
  now_ (fun s1 => chk (fun _ => (if nfts (s_nft s1) !! 0 then true else false) = true) >> 
  chk (fun _ => (if nfts (s_nft s1) !! 1 then true else false) = true) >> 
  chk (fun _ => (if colls (s_nft s1) !! 0 then true else false) = true) >> 
  chk (fun _ => (if colls (s_nft s1) !! 1 then true else false) = true) >> ok Root (C_set_secret_nft_mint_fee 150) >> 
  now_ (fun s2 => chk (fun _ => (secret_fee (s_nft s2)) = 150) >> last_ (Ev_SecretNFTMintFeeSet 150) >> fin)))
  (start_with [(1, 1000); (2, 1000)]).
Proof. replay. Qed.
Example set_secret_nft_mint_fee_bad_origin : (no (sg 1) (C_set_secret_nft_mint_fee 150) (BadOrigin) >> fin)
  (start_with [(1, 10000)]).
Proof. replay. Qed.

(** * extrinsics, convert_to_capsule *)
Example convert_to_capsule : (ok (sg 1) (C_create_nft [] 1000000 None false) >> ok (sg 1) (C_create_collection [] None) >> 
  ok (sg 2) (C_create_nft [] 1000000 None false) >> ok (sg 2) (C_create_collection [] None) >> 
  now_ (fun s1 => chk (fun _ => (if nfts (s_nft s1) !! 0 then true else false) = true) >> 
  chk (fun _ => (if nfts (s_nft s1) !! 1 then true else false) = true) >> 
  chk (fun _ => (if colls (s_nft s1) !! 0 then true else false) = true) >> 
  chk (fun _ => (if colls (s_nft s1) !! 1 then true else false) = true) >> ok (sg 1) (C_convert_to_capsule 0 []) >> 
  now_ (fun s2 => chk (fun _ => (if nfts (s_nft s2) !! 0 then true else false) = true) >> 
  chk (fun _ => (if capsule_data (s_nft s2) !! 0 then true else false) = true) >> 
  chk (fun _ => (is_capsule (nstate (default dnft (nfts (s_nft s2) !! 0)))) = true) >> 
  chk (fun _ => (is_syncing_capsule (nstate (default dnft (nfts (s_nft s2) !! 0)))) = true) >> 
  chk (fun _ => (default [] (capsule_data (s_nft s2) !! 0)) = []) >> last_ (Ev_NFTConvertedToCapsule 0 []) >> fin)))
  (start_with [(1, 1000); (2, 1000)]).
Proof. replay. Qed.
Example convert_to_capsule_nft_not_found : (ok (sg 1) (C_create_nft [] 1000000 None false) >> ok (sg 1) (C_create_collection [] None) >> 
  ok (sg 2) (C_create_nft [] 1000000 None false) >> ok (sg 2) (C_create_collection [] None) >> 
  now_ (fun s1 => chk (fun _ => (if nfts (s_nft s1) !! 0 then true else false) = true) >> 
  chk (fun _ => (if nfts (s_nft s1) !! 1 then true else false) = true) >> 
  chk (fun _ => (if colls (s_nft s1) !! 0 then true else false) = true) >> 
  chk (fun _ => (if colls (s_nft s1) !! 1 then true else false) = true) >> 
  no (sg 1) (C_convert_to_capsule 1001 []) (Nft_err N_NFTNotFound) >> fin))
  (start_with [(1, 1000); (2, 1000)]).
Proof. replay. Qed.
Example convert_to_capsule_not_the_nft_owner : (ok (sg 1) (C_create_nft [] 1000000 None false) >> ok (sg 1) (C_create_collection [] None) >> 
  ok (sg 2) (C_create_nft [] 1000000 None false) >> ok (sg 2) (C_create_collection [] None) >> 
  now_ (fun s1 => chk (fun _ => (if nfts (s_nft s1) !! 0 then true else false) = true) >> 
  chk (fun _ => (if nfts (s_nft s1) !! 1 then true else false) = true) >> 
  chk (fun _ => (if colls (s_nft s1) !! 0 then true else false) = true) >> 
  chk (fun _ => (if colls (s_nft s1) !! 1 then true else false) = true) >> 
  no (sg 1) (C_convert_to_capsule 1 []) (Nft_err N_NotTheNFTOwner) >> fin))
  (start_with [(1, 1000); (2, 1000)]).
Proof. replay. Qed.
Example cannot_convert_listed_nfts : (ok (sg 1) (C_create_nft [] 1000000 None false) >> ok (sg 1) (C_create_collection [] None) >> 
  ok (sg 2) (C_create_nft [] 1000000 None false) >> ok (sg 2) (C_create_collection [] None) >> 
  now_ (fun s1 => chk (fun _ => (if nfts (s_nft s1) !! 0 then true else false) = true) >> 
  chk (fun _ => (if nfts (s_nft s1) !! 1 then true else false) = true) >> 
  chk (fun _ => (if colls (s_nft s1) !! 0 then true else false) = true) >> 
  chk (fun _ => (if colls (s_nft s1) !! 1 then true else false) = true) >> 
  flag 0 (fun _ => mkNftState false true false false false false false false false) >> 
  no (sg 1) (C_convert_to_capsule 0 []) (Nft_err N_CannotConvertListedNFTs) >> fin))
  (start_with [(1, 1000); (2, 1000)]).
Proof. replay. Qed.
Example cannot_convert_capsules : (ok (sg 1) (C_create_nft [] 1000000 None false) >> ok (sg 1) (C_create_collection [] None) >> 
  ok (sg 2) (C_create_nft [] 1000000 None false) >> ok (sg 2) (C_create_collection [] None) >> 
  now_ (fun s1 => chk (fun _ => (if nfts (s_nft s1) !! 0 then true else false) = true) >> 
  chk (fun _ => (if nfts (s_nft s1) !! 1 then true else false) = true) >> 
  chk (fun _ => (if colls (s_nft s1) !! 0 then true else false) = true) >> 
  chk (fun _ => (if colls (s_nft s1) !! 1 then true else false) = true) >> 
  flag 0 (fun _ => mkNftState true false false false false false false false false) >> 
  no (sg 1) (C_convert_to_capsule 0 []) (Nft_err N_CannotConvertCapsules) >> fin))
  (start_with [(1, 1000); (2, 1000)]).
Proof. replay. Qed.
Example cannot_convert_rented_nfts : (ok (sg 1) (C_create_nft [] 1000000 None false) >> ok (sg 1) (C_create_collection [] None) >> 
  ok (sg 2) (C_create_nft [] 1000000 None false) >> ok (sg 2) (C_create_collection [] None) >> 
  now_ (fun s1 => chk (fun _ => (if nfts (s_nft s1) !! 0 then true else false) = true) >> 
  chk (fun _ => (if nfts (s_nft s1) !! 1 then true else false) = true) >> 
  chk (fun _ => (if colls (s_nft s1) !! 0 then true else false) = true) >> 
  chk (fun _ => (if colls (s_nft s1) !! 1 then true else false) = true) >> 
  flag 0 (fun _ => mkNftState false false false false false false true false false) >> 
  no (sg 1) (C_convert_to_capsule 0 []) (Nft_err N_CannotConvertRentedNFTs) >> fin))
  (start_with [(1, 1000); (2, 1000)]).
Proof. replay. Qed.
Example cannot_convert_delegated_nfts : (ok (sg 1) (C_create_nft [] 1000000 None false) >> ok (sg 1) (C_create_collection [] None) >> 
  ok (sg 2) (C_create_nft [] 1000000 None false) >> ok (sg 2) (C_create_collection [] None) >> 
  now_ (fun s1 => chk (fun _ => (if nfts (s_nft s1) !! 0 then true else false) = true) >> 
  chk (fun _ => (if nfts (s_nft s1) !! 1 then true else false) = true) >> 
  chk (fun _ => (if colls (s_nft s1) !! 0 then true else false) = true) >> 
  chk (fun _ => (if colls (s_nft s1) !! 1 then true else false) = true) >> 
  flag 0 (fun _ => mkNftState false false false true false false false false false) >> 
  no (sg 1) (C_convert_to_capsule 0 []) (Nft_err N_CannotConvertDelegatedNFTs) >> fin))
  (start_with [(1, 1000); (2, 1000)]).
Proof. replay. Qed.
Example cannot_convert_syncing_nfts : (ok (sg 1) (C_create_nft [] 1000000 None false) >> ok (sg 1) (C_create_collection [] None) >> 
  ok (sg 2) (C_create_nft [] 1000000 None false) >> ok (sg 2) (C_create_collection [] None) >> 
  now_ (fun s1 => chk (fun _ => (if nfts (s_nft s1) !! 0 then true else false) = true) >> 
  chk (fun _ => (if nfts (s_nft s1) !! 1 then true else false) = true) >> 
  chk (fun _ => (if colls (s_nft s1) !! 0 then true else false) = true) >> 
  chk (fun _ => (if colls (s_nft s1) !! 1 then true else false) = true) >> 
  flag 0 (fun _ => mkNftState false false false false false true false false false) >> 
  no (sg 1) (C_convert_to_capsule 0 []) (Nft_err N_CannotConvertSyncingNFTs) >> fin))
  (start_with [(1, 1000); (2, 1000)]).
Proof. replay. Qed.
Example cannot_convert_nfts_in_transmission : (ok (sg 1) (C_create_nft [] 1000000 None false) >> ok (sg 1) (C_create_collection [] None) >> 
  ok (sg 2) (C_create_nft [] 1000000 None false) >> ok (sg 2) (C_create_collection [] None) >> 
  now_ (fun s1 => chk (fun _ => (if nfts (s_nft s1) !! 0 then true else false) = true) >> 
  chk (fun _ => (if nfts (s_nft s1) !! 1 then true else false) = true) >> 
  chk (fun _ => (if colls (s_nft s1) !! 0 then true else false) = true) >> 
  chk (fun _ => (if colls (s_nft s1) !! 1 then true else false) = true) >> 
  flag 0 (fun _ => mkNftState false false false false false false false false true) >> 
  no (sg 1) (C_convert_to_capsule 0 []) (Nft_err N_CannotConvertNFTsInTransmission) >> fin))
  (start_with [(1, 1000); (2, 1000)]).
Proof. replay. Qed.
Example convert_to_capsule_not_enough_balance : (ok (sg 1) (C_create_nft [] 1000000 None false) >> ok (sg 1) (C_create_collection [] None) >> 
  ok (sg 2) (C_create_nft [] 1000000 None false) >> ok (sg 2) (C_create_collection [] None) >> 
  now_ (fun s1 => chk (fun _ => (if nfts (s_nft s1) !! 0 then true else false) = true) >> 
  chk (fun _ => (if nfts (s_nft s1) !! 1 then true else false) = true) >> 
  chk (fun _ => (if colls (s_nft s1) !! 0 then true else false) = true) >> 
  chk (fun _ => (if colls (s_nft s1) !! 1 then true else false) = true) >> set_bal 1 0 >> 
  no (sg 1) (C_convert_to_capsule 0 []) (Balances_InsufficientBalance) >> fin))
  (start_with [(1, 1000); (2, 1000)]).
Proof. replay. Qed.

(** * extrinsics, create_capsule *)
Example create_capsule : (
  now_ (fun s1 => 
  ok (sg 1) (C_create_capsule (offchain_data (((mkNft 1 1 [] None 1000000 (mkNftState false false false false false false false false false)) <| nstate := (nstate (mkNft 1 1 [] None 1000000 (mkNftState false false false false false false false false false))) <| is_capsule := true |> |>) <| nstate := (nstate ((mkNft 1 1 [] None 1000000 (mkNftState false false false false false false false false false)) <| nstate := (nstate (mkNft 1 1 [] None 1000000 (mkNftState false false false false false false false false false))) <| is_capsule := true |> |>)) <| is_syncing_capsule := true |> |>)) [] (royalty (((mkNft 1 1 [] None 1000000 (mkNftState false false false false false false false false false)) <| nstate := (nstate (mkNft 1 1 [] None 1000000 (mkNftState false false false false false false false false false))) <| is_capsule := true |> |>) <| nstate := (nstate ((mkNft 1 1 [] None 1000000 (mkNftState false false false false false false false false false)) <| nstate := (nstate (mkNft 1 1 [] None 1000000 (mkNftState false false false false false false false false false))) <| is_capsule := true |> |>)) <| is_syncing_capsule := true |> |>)) (collection_id (((mkNft 1 1 [] None 1000000 (mkNftState false false false false false false false false false)) <| nstate := (nstate (mkNft 1 1 [] None 1000000 (mkNftState false false false false false false false false false))) <| is_capsule := true |> |>) <| nstate := (nstate ((mkNft 1 1 [] None 1000000 (mkNftState false false false false false false false false false)) <| nstate := (nstate (mkNft 1 1 [] None 1000000 (mkNftState false false false false false false false false false))) <| is_capsule := true |> |>)) <| is_syncing_capsule := true |> |>)) (is_soulbound (nstate (((mkNft 1 1 [] None 1000000 (mkNftState false false false false false false false false false)) <| nstate := (nstate (mkNft 1 1 [] None 1000000 (mkNftState false false false false false false false false false))) <| is_capsule := true |> |>) <| nstate := (nstate ((mkNft 1 1 [] None 1000000 (mkNftState false false false false false false false false false)) <| nstate := (nstate (mkNft 1 1 [] None 1000000 (mkNftState false false false false false false false false false))) <| is_capsule := true |> |>)) <| is_syncing_capsule := true |> |>)))) >> 
  now_ (fun s2 => upd (fun s => s <| s_nft ::= fun n => n <| next_nft ::= N.succ |> |>) >> 
  now_ (fun s3 => chk (fun _ => (if capsule_data (s_nft s3) !! ((next_nft (s_nft s2)) - 1) then true else false) = true) >> 
  chk (fun _ => (nfts (s_nft s3) !! ((next_nft (s_nft s2)) - 1)) = (Some (((mkNft 1 1 [] None 1000000 (mkNftState false false false false false false false false false)) <| nstate := (nstate (mkNft 1 1 [] None 1000000 (mkNftState false false false false false false false false false))) <| is_capsule := true |> |>) <| nstate := (nstate ((mkNft 1 1 [] None 1000000 (mkNftState false false false false false false false false false)) <| nstate := (nstate (mkNft 1 1 [] None 1000000 (mkNftState false false false false false false false false false))) <| is_capsule := true |> |>)) <| is_syncing_capsule := true |> |>))) >> 
  chk (fun _ => (bal 1 s3) = (((bal 1 s1) - (mint_fee (s_nft s3))) - (capsule_fee (s_nft s3)))) >> 
  chk (fun _ => (default [] (capsule_data (s_nft s3) !! ((next_nft (s_nft s2)) - 1))) = []) >> 
  has_ (Ev_NFTCreated ((next_nft (s_nft s2)) - 1) (owner (((mkNft 1 1 [] None 1000000 (mkNftState false false false false false false false false false)) <| nstate := (nstate (mkNft 1 1 [] None 1000000 (mkNftState false false false false false false false false false))) <| is_capsule := true |> |>) <| nstate := (nstate ((mkNft 1 1 [] None 1000000 (mkNftState false false false false false false false false false)) <| nstate := (nstate (mkNft 1 1 [] None 1000000 (mkNftState false false false false false false false false false))) <| is_capsule := true |> |>)) <| is_syncing_capsule := true |> |>)) (offchain_data (((mkNft 1 1 [] None 1000000 (mkNftState false false false false false false false false false)) <| nstate := (nstate (mkNft 1 1 [] None 1000000 (mkNftState false false false false false false false false false))) <| is_capsule := true |> |>) <| nstate := (nstate ((mkNft 1 1 [] None 1000000 (mkNftState false false false false false false false false false)) <| nstate := (nstate (mkNft 1 1 [] None 1000000 (mkNftState false false false false false false false false false))) <| is_capsule := true |> |>)) <| is_syncing_capsule := true |> |>)) (royalty (((mkNft 1 1 [] None 1000000 (mkNftState false false false false false false false false false)) <| nstate := (nstate (mkNft 1 1 [] None 1000000 (mkNftState false false false false false false false false false))) <| is_capsule := true |> |>) <| nstate := (nstate ((mkNft 1 1 [] None 1000000 (mkNftState false false false false false false false false false)) <| nstate := (nstate (mkNft 1 1 [] None 1000000 (mkNftState false false false false false false false false false))) <| is_capsule := true |> |>)) <| is_syncing_capsule := true |> |>)) (collection_id (((mkNft 1 1 [] None 1000000 (mkNftState false false false false false false false false false)) <| nstate := (nstate (mkNft 1 1 [] None 1000000 (mkNftState false false false false false false false false false))) <| is_capsule := true |> |>) <| nstate := (nstate ((mkNft 1 1 [] None 1000000 (mkNftState false false false false false false false false false)) <| nstate := (nstate (mkNft 1 1 [] None 1000000 (mkNftState false false false false false false false false false))) <| is_capsule := true |> |>)) <| is_syncing_capsule := true |> |>)) (is_soulbound (nstate (((mkNft 1 1 [] None 1000000 (mkNftState false false false false false false false false false)) <| nstate := (nstate (mkNft 1 1 [] None 1000000 (mkNftState false false false false false false false false false))) <| is_capsule := true |> |>) <| nstate := (nstate ((mkNft 1 1 [] None 1000000 (mkNftState false false false false false false false false false)) <| nstate := (nstate (mkNft 1 1 [] None 1000000 (mkNftState false false false false false false false false false))) <| is_capsule := true |> |>)) <| is_syncing_capsule := true |> |>))) (mint_fee (s_nft s3))) >> 
  last_ (Ev_NFTConvertedToCapsule ((next_nft (s_nft s2)) - 1) []) >> fin))))
  (start_with [(1, 1000)]).
Proof. replay. Qed.
Example create_capsule_insufficient_balance : (no (sg 1) (C_create_capsule [] [] 0 None false) (Nft_err N_InsufficientBalance) >> fin)
  (start_with [(1, 11)]).
Proof. replay. Qed.
Example create_capsule_keep_alive : (ok (sg 1) (C_create_nft [] 1000000 None false) >> ok (sg 1) (C_create_collection [] None) >> 
  ok (sg 2) (C_create_nft [] 1000000 None false) >> ok (sg 2) (C_create_collection [] None) >> 
  now_ (fun s1 => chk (fun _ => (if nfts (s_nft s1) !! 0 then true else false) = true) >> 
  chk (fun _ => (if nfts (s_nft s1) !! 1 then true else false) = true) >> 
  chk (fun _ => (if colls (s_nft s1) !! 0 then true else false) = true) >> 
  chk (fun _ => (if colls (s_nft s1) !! 1 then true else false) = true) >> 
  no (sg 1) (C_create_capsule [] [] 0 None false) (Balances_KeepAlive) >> chk (fun _ => (bal 1 s1) = (bal 1 s1)) >> fin))
  (start_with [(1, 120); (2, 1000)]).
Proof. replay. Qed.

(** * extrinsics, set_capsule_offchaindata *)
Example set_capsule_offchaindata : (ok (sg 1) (C_create_nft [] 1000000 None false) >> ok (sg 1) (C_create_collection [] None) >> 
  ok (sg 2) (C_create_nft [] 1000000 None false) >> ok (sg 2) (C_create_collection [] None) >> 
  now_ (fun s1 => chk (fun _ => (if nfts (s_nft s1) !! 0 then true else false) = true) >> 
  chk (fun _ => (if nfts (s_nft s1) !! 1 then true else false) = true) >> 
  chk (fun _ => (if colls (s_nft s1) !! 0 then true else false) = true) >> 
  chk (fun _ => (if colls (s_nft s1) !! 1 then true else false) = true) >> ok (sg 1) (C_convert_to_capsule 0 []) >> 
  flag 0 (fun _ => mkNftState true false false false false false false false false) >> 
  ok (sg 1) (C_set_capsule_offchaindata 0 []) >> 
  now_ (fun s2 => chk (fun _ => (if nfts (s_nft s2) !! 0 then true else false) = true) >> 
  chk (fun _ => (is_capsule (nstate (default dnft (nfts (s_nft s2) !! 0)))) = true) >> 
  chk (fun _ => (is_syncing_capsule (nstate (default dnft (nfts (s_nft s2) !! 0)))) = false) >> 
  chk (fun _ => (capsule_data (s_nft s2) !! 0) = (Some [])) >> last_ (Ev_CapsuleOffchainDataSet 0 []) >> fin)))
  (start_with [(1, 1000); (2, 1000)]).
Proof. replay. Qed.
Example set_capsule_offchaindata_nft_not_found : (ok (sg 1) (C_create_nft [] 1000000 None false) >> ok (sg 1) (C_create_collection [] None) >> 
  ok (sg 2) (C_create_nft [] 1000000 None false) >> ok (sg 2) (C_create_collection [] None) >> 
  now_ (fun s1 => chk (fun _ => (if nfts (s_nft s1) !! 0 then true else false) = true) >> 
  chk (fun _ => (if nfts (s_nft s1) !! 1 then true else false) = true) >> 
  chk (fun _ => (if colls (s_nft s1) !! 0 then true else false) = true) >> 
  chk (fun _ => (if colls (s_nft s1) !! 1 then true else false) = true) >> 
  no (sg 1) (C_set_capsule_offchaindata 1001 []) (Nft_err N_NFTNotFound) >> fin))
  (start_with [(1, 1000); (2, 1000)]).
Proof. replay. Qed.
Example set_capsule_offchaindata_not_the_nft_owner : (ok (sg 1) (C_create_nft [] 1000000 None false) >> ok (sg 1) (C_create_collection [] None) >> 
  ok (sg 2) (C_create_nft [] 1000000 None false) >> ok (sg 2) (C_create_collection [] None) >> 
  now_ (fun s1 => chk (fun _ => (if nfts (s_nft s1) !! 0 then true else false) = true) >> 
  chk (fun _ => (if nfts (s_nft s1) !! 1 then true else false) = true) >> 
  chk (fun _ => (if colls (s_nft s1) !! 0 then true else false) = true) >> 
  chk (fun _ => (if colls (s_nft s1) !! 1 then true else false) = true) >> 
  no (sg 1) (C_set_capsule_offchaindata 1 []) (Nft_err N_NotTheNFTOwner) >> fin))
  (start_with [(1, 1000); (2, 1000)]).
Proof. replay. Qed.
Example nft_is_not_capsule : (ok (sg 1) (C_create_nft [] 1000000 None false) >> ok (sg 1) (C_create_collection [] None) >> 
  ok (sg 2) (C_create_nft [] 1000000 None false) >> ok (sg 2) (C_create_collection [] None) >> 
  now_ (fun s1 => chk (fun _ => (if nfts (s_nft s1) !! 0 then true else false) = true) >> 
  chk (fun _ => (if nfts (s_nft s1) !! 1 then true else false) = true) >> 
  chk (fun _ => (if colls (s_nft s1) !! 0 then true else false) = true) >> 
  chk (fun _ => (if colls (s_nft s1) !! 1 then true else false) = true) >> 
  no (sg 1) (C_set_capsule_offchaindata 0 []) (Nft_err N_NFTIsNotCapsule) >> fin))
  (start_with [(1, 1000); (2, 1000)]).
Proof. replay. Qed.
Example cannot_set_offchain_data_for_listed_nfts : (ok (sg 1) (C_create_nft [] 1000000 None false) >> ok (sg 1) (C_create_collection [] None) >> 
  ok (sg 2) (C_create_nft [] 1000000 None false) >> ok (sg 2) (C_create_collection [] None) >> 
  now_ (fun s1 => chk (fun _ => (if nfts (s_nft s1) !! 0 then true else false) = true) >> 
  chk (fun _ => (if nfts (s_nft s1) !! 1 then true else false) = true) >> 
  chk (fun _ => (if colls (s_nft s1) !! 0 then true else false) = true) >> 
  chk (fun _ => (if colls (s_nft s1) !! 1 then true else false) = true) >> 
  flag 0 (fun _ => mkNftState true true false false false false false false false) >> 
  no (sg 1) (C_set_capsule_offchaindata 0 []) (Nft_err N_CannotSetOffchainDataForListedNFTs) >> fin))
  (start_with [(1, 1000); (2, 1000)]).
Proof. replay. Qed.
Example cannot_set_offchain_data_for_rented_nfts : (ok (sg 1) (C_create_nft [] 1000000 None false) >> ok (sg 1) (C_create_collection [] None) >> 
  ok (sg 2) (C_create_nft [] 1000000 None false) >> ok (sg 2) (C_create_collection [] None) >> 
  now_ (fun s1 => chk (fun _ => (if nfts (s_nft s1) !! 0 then true else false) = true) >> 
  chk (fun _ => (if nfts (s_nft s1) !! 1 then true else false) = true) >> 
  chk (fun _ => (if colls (s_nft s1) !! 0 then true else false) = true) >> 
  chk (fun _ => (if colls (s_nft s1) !! 1 then true else false) = true) >> 
  flag 0 (fun _ => mkNftState true false false false false false true false false) >> 
  no (sg 1) (C_set_capsule_offchaindata 0 []) (Nft_err N_CannotSetOffchainDataForRentedNFTs) >> fin))
  (start_with [(1, 1000); (2, 1000)]).
Proof. replay. Qed.
Example cannot_set_offchain_data_for_delegated_nfts : (ok (sg 1) (C_create_nft [] 1000000 None false) >> ok (sg 1) (C_create_collection [] None) >> 
  ok (sg 2) (C_create_nft [] 1000000 None false) >> ok (sg 2) (C_create_collection [] None) >> 
  now_ (fun s1 => chk (fun _ => (if nfts (s_nft s1) !! 0 then true else false) = true) >> 
  chk (fun _ => (if nfts (s_nft s1) !! 1 then true else false) = true) >> 
  chk (fun _ => (if colls (s_nft s1) !! 0 then true else false) = true) >> 
  chk (fun _ => (if colls (s_nft s1) !! 1 then true else false) = true) >> 
  flag 0 (fun _ => mkNftState true false false true false false false false false) >> 
  no (sg 1) (C_set_capsule_offchaindata 0 []) (Nft_err N_CannotSetOffchainDataForDelegatedNFTs) >> fin))
  (start_with [(1, 1000); (2, 1000)]).
Proof. replay. Qed.
Example cannot_set_offchain_data_for_syncing_nfts : (ok (sg 1) (C_create_nft [] 1000000 None false) >> ok (sg 1) (C_create_collection [] None) >> 
  ok (sg 2) (C_create_nft [] 1000000 None false) >> ok (sg 2) (C_create_collection [] None) >> 
  now_ (fun s1 => chk (fun _ => (if nfts (s_nft s1) !! 0 then true else false) = true) >> 
  chk (fun _ => (if nfts (s_nft s1) !! 1 then true else false) = true) >> 
  chk (fun _ => (if colls (s_nft s1) !! 0 then true else false) = true) >> 
  chk (fun _ => (if colls (s_nft s1) !! 1 then true else false) = true) >> 
  flag 0 (fun _ => mkNftState true false false false false true false false false) >> 
  no (sg 1) (C_set_capsule_offchaindata 0 []) (Nft_err N_CannotSetOffchainDataForSyncingNFTs) >> fin))
  (start_with [(1, 1000); (2, 1000)]).
Proof. replay. Qed.
Example cannot_set_offchain_data_for_syncing_capsules : (ok (sg 1) (C_create_nft [] 1000000 None false) >> ok (sg 1) (C_create_collection [] None) >> 
  ok (sg 2) (C_create_nft [] 1000000 None false) >> ok (sg 2) (C_create_collection [] None) >> 
  now_ (fun s1 => chk (fun _ => (if nfts (s_nft s1) !! 0 then true else false) = true) >> 
  chk (fun _ => (if nfts (s_nft s1) !! 1 then true else false) = true) >> 
  chk (fun _ => (if colls (s_nft s1) !! 0 then true else false) = true) >> 
  chk (fun _ => (if colls (s_nft s1) !! 1 then true else false) = true) >> 
  flag 0 (fun _ => mkNftState true false false false false false false true false) >> 
  no (sg 1) (C_set_capsule_offchaindata 0 []) (Nft_err N_CannotSetOffchainDataForSyncingCapsules) >> fin))
  (start_with [(1, 1000); (2, 1000)]).
Proof. replay. Qed.

(** * extrinsics, set_capsule_mint_fee *)
Example set_capsule_mint_fee : (ok (sg 1) (C_create_nft [] 1000000 None false) >> ok (sg 1) (C_create_collection [] None) >> 
  ok (sg 2) (C_create_nft [] 1000000 None false) >> ok (sg 2) (C_create_collection [] None) >> 
  now_ (fun s1 => chk (fun _ => (if nfts (s_nft s1) !! 0 then true else false) = true) >> 
  chk (fun _ => (if nfts (s_nft s1) !! 1 then true else false) = true) >> 
  chk (fun _ => (if colls (s_nft s1) !! 0 then true else false) = true) >> 
  chk (fun _ => (if colls (s_nft s1) !! 1 then true else false) = true) >> ok Root (C_set_capsule_mint_fee 150) >> 
  now_ (fun s2 => chk (fun _ => (capsule_fee (s_nft s2)) = 150) >> last_ (Ev_CapsuleMintFeeSet 150) >> fin)))
  (start_with [(1, 1000); (2, 1000)]).
Proof. replay. Qed.
Example set_capsule_mint_fee_bad_origin : (no (sg 1) (C_set_capsule_mint_fee 150) (BadOrigin) >> fin)
  (start_with [(1, 10000)]).
Proof. replay. Qed.

(** * extrinsics, add_capsule_shard *)
Example add_capsule_shard : (ok (sg 1) (C_create_nft [] 1000000 None false) >> ok (sg 1) (C_create_collection [] None) >> 
  ok (sg 2) (C_create_nft [] 1000000 None false) >> ok (sg 2) (C_create_collection [] None) >> 
  now_ (fun s1 => chk (fun _ => (if nfts (s_nft s1) !! 0 then true else false) = true) >> 
  chk (fun _ => (if nfts (s_nft s1) !! 1 then true else false) = true) >> 
  chk (fun _ => (if colls (s_nft s1) !! 0 then true else false) = true) >> 
  chk (fun _ => (if colls (s_nft s1) !! 1 then true else false) = true) >> upd (fun s => s <| s_era := Some 1 |>) >> 
  ok (sg 1) (C_register_enclave 4 [116; 101; 115; 116]) >> ok (sg 2) (C_register_enclave 5 [116; 101; 115; 116]) >> 
  ok (sg 3) (C_register_enclave 6 [116; 101; 115; 116]) >> ok Root (C_create_cluster ClPublic) >> 
  ok Root (C_create_cluster ClPublic) >> ok Root (C_assign_enclave 1 0 0) >> ok Root (C_assign_enclave 2 0 1) >> 
  ok Root (C_assign_enclave 3 1 2) >> ok (sg 1) (C_convert_to_capsule 0 []) >> ok (sg 4) (C_add_capsule_shard 0) >> 
  now_ (fun s2 => chk (fun _ => (if nfts (s_nft s2) !! 0 then true else false) = true) >> 
  chk (fun _ => (if capsule_shards (s_nft s2) !! 0 then true else false) = true) >> 
  chk (fun _ => (is_capsule (nstate (default dnft (nfts (s_nft s2) !! 0)))) = true) >> 
  chk (fun _ => (is_syncing_capsule (nstate (default dnft (nfts (s_nft s2) !! 0)))) = true) >> 
  chk (fun _ => (nlen (default [] (capsule_shards (s_nft s2) !! 0))) = 1) >> 
  chk (fun _ => (existsb (fun x => bool_decide (x = (0, 1))) (default [] (capsule_shards (s_nft s2) !! 0))) = true) >> 
  last_ (Ev_CapsuleShardAdded 0 4) >> fin)))
  (start_with [(1, 1000); (2, 1000); (3, 1000)]).
Proof. replay. Qed.
Example add_capsule_shard_add_last_secret_shard : (ok (sg 1) (C_create_nft [] 1000000 None false) >> ok (sg 1) (C_create_collection [] None) >> 
  ok (sg 2) (C_create_nft [] 1000000 None false) >> ok (sg 2) (C_create_collection [] None) >> 
  now_ (fun s1 => chk (fun _ => (if nfts (s_nft s1) !! 0 then true else false) = true) >> 
  chk (fun _ => (if nfts (s_nft s1) !! 1 then true else false) = true) >> 
  chk (fun _ => (if colls (s_nft s1) !! 0 then true else false) = true) >> 
  chk (fun _ => (if colls (s_nft s1) !! 1 then true else false) = true) >> upd (fun s => s <| s_era := Some 1 |>) >> 
  ok (sg 1) (C_register_enclave 4 [116; 101; 115; 116]) >> ok (sg 2) (C_register_enclave 5 [116; 101; 115; 116]) >> 
  ok (sg 3) (C_register_enclave 6 [116; 101; 115; 116]) >> ok Root (C_create_cluster ClPublic) >> 
  ok Root (C_create_cluster ClPublic) >> ok Root (C_assign_enclave 1 0 0) >> ok Root (C_assign_enclave 2 0 1) >> 
  ok Root (C_assign_enclave 3 1 2) >> ok (sg 1) (C_convert_to_capsule 0 []) >> ok (sg 4) (C_add_capsule_shard 0) >> 
  ok (sg 5) (C_add_capsule_shard 0) >> 
  now_ (fun s2 => chk (fun _ => (if nfts (s_nft s2) !! 0 then true else false) = true) >> 
  chk (fun _ => (is_capsule (nstate (default dnft (nfts (s_nft s2) !! 0)))) = true) >> 
  chk (fun _ => (is_syncing_capsule (nstate (default dnft (nfts (s_nft s2) !! 0)))) = false) >> 
  chk (fun _ => (capsule_shards (s_nft s2) !! 0) = None) >> has_ (Ev_CapsuleShardAdded 0 4) >> last_ (Ev_CapsuleSynced 0) >> fin)))
  (start_with [(1, 1000); (2, 1000); (3, 1000)]).
Proof. replay. Qed.
Example add_capsule_shard_not_a_registered_enclave : (ok (sg 1) (C_create_nft [] 1000000 None false) >> ok (sg 1) (C_create_collection [] None) >> 
  ok (sg 2) (C_create_nft [] 1000000 None false) >> ok (sg 2) (C_create_collection [] None) >> 
  now_ (fun s1 => chk (fun _ => (if nfts (s_nft s1) !! 0 then true else false) = true) >> 
  chk (fun _ => (if nfts (s_nft s1) !! 1 then true else false) = true) >> 
  chk (fun _ => (if colls (s_nft s1) !! 0 then true else false) = true) >> 
  chk (fun _ => (if colls (s_nft s1) !! 1 then true else false) = true) >> ok (sg 1) (C_convert_to_capsule 0 []) >> 
  no (sg 1) (C_add_capsule_shard 0) (Nft_err N_NotARegisteredEnclave) >> fin))
  (start_with [(1, 1000); (2, 1000)]).
Proof. replay. Qed.
Example add_capsule_shard_nft_not_found : (ok (sg 1) (C_create_nft [] 1000000 None false) >> ok (sg 1) (C_create_collection [] None) >> 
  ok (sg 2) (C_create_nft [] 1000000 None false) >> ok (sg 2) (C_create_collection [] None) >> 
  now_ (fun s1 => chk (fun _ => (if nfts (s_nft s1) !! 0 then true else false) = true) >> 
  chk (fun _ => (if nfts (s_nft s1) !! 1 then true else false) = true) >> 
  chk (fun _ => (if colls (s_nft s1) !! 0 then true else false) = true) >> 
  chk (fun _ => (if colls (s_nft s1) !! 1 then true else false) = true) >> upd (fun s => s <| s_era := Some 1 |>) >> 
  ok (sg 1) (C_register_enclave 4 [116; 101; 115; 116]) >> ok (sg 2) (C_register_enclave 5 [116; 101; 115; 116]) >> 
  ok (sg 3) (C_register_enclave 6 [116; 101; 115; 116]) >> ok Root (C_create_cluster ClPublic) >> 
  ok Root (C_create_cluster ClPublic) >> ok Root (C_assign_enclave 1 0 0) >> ok Root (C_assign_enclave 2 0 1) >> 
  ok Root (C_assign_enclave 3 1 2) >> no (sg 4) (C_add_capsule_shard 1001) (Nft_err N_NFTNotFound) >> fin))
  (start_with [(1, 1000); (2, 1000); (3, 1000)]).
Proof. replay. Qed.
Example add_capsule_shard_nft_is_not_capsule : (ok (sg 1) (C_create_nft [] 1000000 None false) >> ok (sg 1) (C_create_collection [] None) >> 
  ok (sg 2) (C_create_nft [] 1000000 None false) >> ok (sg 2) (C_create_collection [] None) >> 
  now_ (fun s1 => chk (fun _ => (if nfts (s_nft s1) !! 0 then true else false) = true) >> 
  chk (fun _ => (if nfts (s_nft s1) !! 1 then true else false) = true) >> 
  chk (fun _ => (if colls (s_nft s1) !! 0 then true else false) = true) >> 
  chk (fun _ => (if colls (s_nft s1) !! 1 then true else false) = true) >> upd (fun s => s <| s_era := Some 1 |>) >> 
  ok (sg 1) (C_register_enclave 4 [116; 101; 115; 116]) >> ok (sg 2) (C_register_enclave 5 [116; 101; 115; 116]) >> 
  ok (sg 3) (C_register_enclave 6 [116; 101; 115; 116]) >> ok Root (C_create_cluster ClPublic) >> 
  ok Root (C_create_cluster ClPublic) >> ok Root (C_assign_enclave 1 0 0) >> ok Root (C_assign_enclave 2 0 1) >> 
  ok Root (C_assign_enclave 3 1 2) >> no (sg 4) (C_add_capsule_shard 0) (Nft_err N_NFTIsNotCapsule) >> fin))
  (start_with [(1, 1000); (2, 1000); (3, 1000)]).
Proof. replay. Qed.
Example add_capsule_shard_nft_already_synced : (ok (sg 1) (C_create_nft [] 1000000 None false) >> ok (sg 1) (C_create_collection [] None) >> 
  ok (sg 2) (C_create_nft [] 1000000 None false) >> ok (sg 2) (C_create_collection [] None) >> 
  now_ (fun s1 => chk (fun _ => (if nfts (s_nft s1) !! 0 then true else false) = true) >> 
  chk (fun _ => (if nfts (s_nft s1) !! 1 then true else false) = true) >> 
  chk (fun _ => (if colls (s_nft s1) !! 0 then true else false) = true) >> 
  chk (fun _ => (if colls (s_nft s1) !! 1 then true else false) = true) >> upd (fun s => s <| s_era := Some 1 |>) >> 
  ok (sg 1) (C_register_enclave 4 [116; 101; 115; 116]) >> ok (sg 2) (C_register_enclave 5 [116; 101; 115; 116]) >> 
  ok (sg 3) (C_register_enclave 6 [116; 101; 115; 116]) >> ok Root (C_create_cluster ClPublic) >> 
  ok Root (C_create_cluster ClPublic) >> ok Root (C_assign_enclave 1 0 0) >> ok Root (C_assign_enclave 2 0 1) >> 
  ok Root (C_assign_enclave 3 1 2) >> ok (sg 1) (C_convert_to_capsule 0 []) >> ok (sg 4) (C_add_capsule_shard 0) >> 
  ok (sg 5) (C_add_capsule_shard 0) >> no (sg 4) (C_add_capsule_shard 0) (Nft_err N_NFTAlreadySynced) >> fin))
  (start_with [(1, 1000); (2, 1000); (3, 1000)]).
Proof. replay. Qed.
Example add_capsule_shard_share_not_from_valid_cluster : (ok (sg 1) (C_create_nft [] 1000000 None false) >> ok (sg 1) (C_create_collection [] None) >> 
  ok (sg 2) (C_create_nft [] 1000000 None false) >> ok (sg 2) (C_create_collection [] None) >> 
  now_ (fun s1 => chk (fun _ => (if nfts (s_nft s1) !! 0 then true else false) = true) >> 
  chk (fun _ => (if nfts (s_nft s1) !! 1 then true else false) = true) >> 
  chk (fun _ => (if colls (s_nft s1) !! 0 then true else false) = true) >> 
  chk (fun _ => (if colls (s_nft s1) !! 1 then true else false) = true) >> upd (fun s => s <| s_era := Some 1 |>) >> 
  ok (sg 1) (C_register_enclave 4 [116; 101; 115; 116]) >> ok (sg 2) (C_register_enclave 5 [116; 101; 115; 116]) >> 
  ok (sg 3) (C_register_enclave 6 [116; 101; 115; 116]) >> ok Root (C_create_cluster ClPublic) >> 
  ok Root (C_create_cluster ClPublic) >> ok Root (C_assign_enclave 1 0 0) >> ok Root (C_assign_enclave 2 0 1) >> 
  ok Root (C_assign_enclave 3 1 2) >> ok (sg 1) (C_convert_to_capsule 0 []) >> ok (sg 4) (C_add_capsule_shard 0) >> 
  no (sg 6) (C_add_capsule_shard 0) (Nft_err N_ShareNotFromValidCluster) >> fin))
  (start_with [(1, 1000); (2, 1000); (3, 1000)]).
Proof. replay. Qed.
Example add_capsule_shard_enclave_already_added_shard : (ok (sg 1) (C_create_nft [] 1000000 None false) >> ok (sg 1) (C_create_collection [] None) >> 
  ok (sg 2) (C_create_nft [] 1000000 None false) >> ok (sg 2) (C_create_collection [] None) >> 
  now_ (fun s1 => chk (fun _ => (if nfts (s_nft s1) !! 0 then true else false) = true) >> 
  chk (fun _ => (if nfts (s_nft s1) !! 1 then true else false) = true) >> 
  chk (fun _ => (if colls (s_nft s1) !! 0 then true else false) = true) >> 
  chk (fun _ => (if colls (s_nft s1) !! 1 then true else false) = true) >> upd (fun s => s <| s_era := Some 1 |>) >> 
  ok (sg 1) (C_register_enclave 4 [116; 101; 115; 116]) >> ok (sg 2) (C_register_enclave 5 [116; 101; 115; 116]) >> 
  ok (sg 3) (C_register_enclave 6 [116; 101; 115; 116]) >> ok Root (C_create_cluster ClPublic) >> 
  ok Root (C_create_cluster ClPublic) >> ok Root (C_assign_enclave 1 0 0) >> ok Root (C_assign_enclave 2 0 1) >> 
  ok Root (C_assign_enclave 3 1 2) >> ok (sg 1) (C_convert_to_capsule 0 []) >> ok (sg 4) (C_add_capsule_shard 0) >> 
  no (sg 4) (C_add_capsule_shard 0) (Nft_err N_EnclaveAlreadyAddedShard) >> fin))
  (start_with [(1, 1000); (2, 1000); (3, 1000)]).
Proof. replay. Qed.

(** * extrinsics, notify_enclave_key_update *)
Example notify_enclave_key_update : (ok (sg 1) (C_create_nft [] 1000000 None false) >> ok (sg 1) (C_create_collection [] None) >> 
  ok (sg 2) (C_create_nft [] 1000000 None false) >> ok (sg 2) (C_create_collection [] None) >> 
  now_ (fun s1 => chk (fun _ => (if nfts (s_nft s1) !! 0 then true else false) = true) >> 
  chk (fun _ => (if nfts (s_nft s1) !! 1 then true else false) = true) >> 
  chk (fun _ => (if colls (s_nft s1) !! 0 then true else false) = true) >> 
  chk (fun _ => (if colls (s_nft s1) !! 1 then true else false) = true) >> ok (sg 1) (C_convert_to_capsule 0 []) >> 
  flag 0 (fun _ => mkNftState true false false false false false false false false) >> ok (sg 1) (C_notify_enclave_key_update 0) >> 
  now_ (fun s2 => chk (fun _ => (if nfts (s_nft s2) !! 0 then true else false) = true) >> 
  chk (fun _ => (is_capsule (nstate (default dnft (nfts (s_nft s2) !! 0)))) = true) >> 
  chk (fun _ => (is_syncing_capsule (nstate (default dnft (nfts (s_nft s2) !! 0)))) = true) >> 
  last_ (Ev_CapsuleKeyUpdateNotified 0) >> fin)))
  (start_with [(1, 1000); (2, 1000); (3, 1000)]).
Proof. replay. Qed.
Example notify_enclave_key_update_nft_not_found : (ok (sg 1) (C_create_nft [] 1000000 None false) >> ok (sg 1) (C_create_collection [] None) >> 
  ok (sg 2) (C_create_nft [] 1000000 None false) >> ok (sg 2) (C_create_collection [] None) >> 
  now_ (fun s1 => chk (fun _ => (if nfts (s_nft s1) !! 0 then true else false) = true) >> 
  chk (fun _ => (if nfts (s_nft s1) !! 1 then true else false) = true) >> 
  chk (fun _ => (if colls (s_nft s1) !! 0 then true else false) = true) >> 
  chk (fun _ => (if colls (s_nft s1) !! 1 then true else false) = true) >> 
  no (sg 1) (C_notify_enclave_key_update 1001) (Nft_err N_NFTNotFound) >> fin))
  (start_with [(1, 1000); (2, 1000); (3, 1000)]).
Proof. replay. Qed.
Example notify_enclave_key_update_not_the_nft_owner : (ok (sg 1) (C_create_nft [] 1000000 None false) >> ok (sg 1) (C_create_collection [] None) >> 
  ok (sg 2) (C_create_nft [] 1000000 None false) >> ok (sg 2) (C_create_collection [] None) >> 
  now_ (fun s1 => chk (fun _ => (if nfts (s_nft s1) !! 0 then true else false) = true) >> 
  chk (fun _ => (if nfts (s_nft s1) !! 1 then true else false) = true) >> 
  chk (fun _ => (if colls (s_nft s1) !! 0 then true else false) = true) >> 
  chk (fun _ => (if colls (s_nft s1) !! 1 then true else false) = true) >> 
  no (sg 1) (C_notify_enclave_key_update 1) (Nft_err N_NotTheNFTOwner) >> fin))
  (start_with [(1, 1000); (2, 1000); (3, 1000)]).
Proof. replay. Qed.
Example notify_enclave_key_update_nft_is_not_capsule : (ok (sg 1) (C_create_nft [] 1000000 None false) >> ok (sg 1) (C_create_collection [] None) >> 
  ok (sg 2) (C_create_nft [] 1000000 None false) >> ok (sg 2) (C_create_collection [] None) >> 
  now_ (fun s1 => chk (fun _ => (if nfts (s_nft s1) !! 0 then true else false) = true) >> 
  chk (fun _ => (if nfts (s_nft s1) !! 1 then true else false) = true) >> 
  chk (fun _ => (if colls (s_nft s1) !! 0 then true else false) = true) >> 
  chk (fun _ => (if colls (s_nft s1) !! 1 then true else false) = true) >> 
  no (sg 1) (C_notify_enclave_key_update 0) (Nft_err N_NFTIsNotCapsule) >> fin))
  (start_with [(1, 1000); (2, 1000); (3, 1000)]).
Proof. replay. Qed.
Example cannot_change_key_for_listed_nfts : (ok (sg 1) (C_create_nft [] 1000000 None false) >> ok (sg 1) (C_create_collection [] None) >> 
  ok (sg 2) (C_create_nft [] 1000000 None false) >> ok (sg 2) (C_create_collection [] None) >> 
  now_ (fun s1 => chk (fun _ => (if nfts (s_nft s1) !! 0 then true else false) = true) >> 
  chk (fun _ => (if nfts (s_nft s1) !! 1 then true else false) = true) >> 
  chk (fun _ => (if colls (s_nft s1) !! 0 then true else false) = true) >> 
  chk (fun _ => (if colls (s_nft s1) !! 1 then true else false) = true) >> ok (sg 1) (C_convert_to_capsule 0 []) >> 
  flag 0 (fun _ => mkNftState true true false false false false false false false) >> 
  no (sg 1) (C_notify_enclave_key_update 0) (Nft_err N_CannotChangeKeyForListedNFTs) >> fin))
  (start_with [(1, 1000); (2, 1000); (3, 1000)]).
Proof. replay. Qed.
Example cannot_change_key_for_rented_nfts : (ok (sg 1) (C_create_nft [] 1000000 None false) >> ok (sg 1) (C_create_collection [] None) >> 
  ok (sg 2) (C_create_nft [] 1000000 None false) >> ok (sg 2) (C_create_collection [] None) >> 
  now_ (fun s1 => chk (fun _ => (if nfts (s_nft s1) !! 0 then true else false) = true) >> 
  chk (fun _ => (if nfts (s_nft s1) !! 1 then true else false) = true) >> 
  chk (fun _ => (if colls (s_nft s1) !! 0 then true else false) = true) >> 
  chk (fun _ => (if colls (s_nft s1) !! 1 then true else false) = true) >> ok (sg 1) (C_convert_to_capsule 0 []) >> 
  flag 0 (fun _ => mkNftState true false false false false false true false false) >> 
  no (sg 1) (C_notify_enclave_key_update 0) (Nft_err N_CannotChangeKeyForRentedNFTs) >> fin))
  (start_with [(1, 1000); (2, 1000); (3, 1000)]).
Proof. replay. Qed.
Example cannot_change_key_for_delegated_nfts : (ok (sg 1) (C_create_nft [] 1000000 None false) >> ok (sg 1) (C_create_collection [] None) >> 
  ok (sg 2) (C_create_nft [] 1000000 None false) >> ok (sg 2) (C_create_collection [] None) >> 
  now_ (fun s1 => chk (fun _ => (if nfts (s_nft s1) !! 0 then true else false) = true) >> 
  chk (fun _ => (if nfts (s_nft s1) !! 1 then true else false) = true) >> 
  chk (fun _ => (if colls (s_nft s1) !! 0 then true else false) = true) >> 
  chk (fun _ => (if colls (s_nft s1) !! 1 then true else false) = true) >> ok (sg 1) (C_convert_to_capsule 0 []) >> 
  flag 0 (fun _ => mkNftState true false false true false false false false false) >> 
  no (sg 1) (C_notify_enclave_key_update 0) (Nft_err N_CannotChangeKeyForDelegatedNFTs) >> fin))
  (start_with [(1, 1000); (2, 1000); (3, 1000)]).
Proof. replay. Qed.
Example cannot_change_key_for_syncing_nfts : (ok (sg 1) (C_create_nft [] 1000000 None false) >> ok (sg 1) (C_create_collection [] None) >> 
  ok (sg 2) (C_create_nft [] 1000000 None false) >> ok (sg 2) (C_create_collection [] None) >> 
  now_ (fun s1 => chk (fun _ => (if nfts (s_nft s1) !! 0 then true else false) = true) >> 
  chk (fun _ => (if nfts (s_nft s1) !! 1 then true else false) = true) >> 
  chk (fun _ => (if colls (s_nft s1) !! 0 then true else false) = true) >> 
  chk (fun _ => (if colls (s_nft s1) !! 1 then true else false) = true) >> ok (sg 1) (C_convert_to_capsule 0 []) >> 
  flag 0 (fun _ => mkNftState true false false false false true false false false) >> 
  no (sg 1) (C_notify_enclave_key_update 0) (Nft_err N_CannotChangeKeyForSyncingNFTs) >> fin))
  (start_with [(1, 1000); (2, 1000); (3, 1000)]).
Proof. replay. Qed.
Example cannot_change_key_for_syncing_capsules : (ok (sg 1) (C_create_nft [] 1000000 None false) >> ok (sg 1) (C_create_collection [] None) >> 
  ok (sg 2) (C_create_nft [] 1000000 None false) >> ok (sg 2) (C_create_collection [] None) >> 
  now_ (fun s1 => chk (fun _ => (if nfts (s_nft s1) !! 0 then true else false) = true) >> 
  chk (fun _ => (if nfts (s_nft s1) !! 1 then true else false) = true) >> 
  chk (fun _ => (if colls (s_nft s1) !! 0 then true else false) = true) >> 
  chk (fun _ => (if colls (s_nft s1) !! 1 then true else false) = true) >> ok (sg 1) (C_convert_to_capsule 0 []) >> 
  flag 0 (fun _ => mkNftState true false false false false false false true false) >> 
  no (sg 1) (C_notify_enclave_key_update 0) (Nft_err N_CannotChangeKeyForSyncingCapsules) >> fin))
  (start_with [(1, 1000); (2, 1000); (3, 1000)]).
Proof. replay. Qed.
Example cannot_change_key_for_nfts_in_transmission : (ok (sg 1) (C_create_nft [] 1000000 None false) >> ok (sg 1) (C_create_collection [] None) >> 
  ok (sg 2) (C_create_nft [] 1000000 None false) >> ok (sg 2) (C_create_collection [] None) >> 
  now_ (fun s1 => chk (fun _ => (if nfts (s_nft s1) !! 0 then true else false) = true) >> 
  chk (fun _ => (if nfts (s_nft s1) !! 1 then true else false) = true) >> 
  chk (fun _ => (if colls (s_nft s1) !! 0 then true else false) = true) >> 
  chk (fun _ => (if colls (s_nft s1) !! 1 then true else false) = true) >> ok (sg 1) (C_convert_to_capsule 0 []) >> 
  flag 0 (fun _ => mkNftState true false false false false false false false true) >> 
  no (sg 1) (C_notify_enclave_key_update 0) (Nft_err N_CannotChangeKeyForNFTsInTransmission) >> fin))
  (start_with [(1, 1000); (2, 1000); (3, 1000)]).
Proof. replay. Qed.

(** * extrinsics, set_collection_offchaindata *)
Example set_collection_offchaindata : (ok (sg 1) (C_create_nft [] 1000000 None false) >> ok (sg 1) (C_create_collection [] None) >> 
  ok (sg 2) (C_create_nft [] 1000000 None false) >> ok (sg 2) (C_create_collection [] None) >> 
  now_ (fun s1 => chk (fun _ => (if nfts (s_nft s1) !! 0 then true else false) = true) >> 
  chk (fun _ => (if nfts (s_nft s1) !! 1 then true else false) = true) >> 
  chk (fun _ => (if colls (s_nft s1) !! 0 then true else false) = true) >> 
  chk (fun _ => (if colls (s_nft s1) !! 1 then true else false) = true) >> ok (sg 1) (C_set_collection_offchaindata 0 [1]) >> 
  now_ (fun s2 => chk (fun _ => (if colls (s_nft s2) !! 0 then true else false) = true) >> 
  chk (fun _ => (c_offchain (default dcoll (colls (s_nft s2) !! 0))) = [1]) >> last_ (Ev_CollectionOffchainDataSet 0 [1]) >> fin)))
  (start_with [(1, 1000); (2, 1000)]).
Proof. replay. Qed.
Example set_collection_offchaindata_collection_not_found : (ok (sg 1) (C_create_nft [] 1000000 None false) >> ok (sg 1) (C_create_collection [] None) >> 
  ok (sg 2) (C_create_nft [] 1000000 None false) >> ok (sg 2) (C_create_collection [] None) >> 
  now_ (fun s1 => chk (fun _ => (if nfts (s_nft s1) !! 0 then true else false) = true) >> 
  chk (fun _ => (if nfts (s_nft s1) !! 1 then true else false) = true) >> 
  chk (fun _ => (if colls (s_nft s1) !! 0 then true else false) = true) >> 
  chk (fun _ => (if colls (s_nft s1) !! 1 then true else false) = true) >> 
  no (sg 1) (C_set_collection_offchaindata 1001 [1]) (Nft_err N_CollectionNotFound) >> fin))
  (start_with [(1, 1000); (2, 1000)]).
Proof. replay. Qed.
Example set_collection_offchaindata_not_the_collection_owner : (ok (sg 1) (C_create_nft [] 1000000 None false) >> ok (sg 1) (C_create_collection [] None) >> 
  ok (sg 2) (C_create_nft [] 1000000 None false) >> ok (sg 2) (C_create_collection [] None) >> 
  now_ (fun s1 => chk (fun _ => (if nfts (s_nft s1) !! 0 then true else false) = true) >> 
  chk (fun _ => (if nfts (s_nft s1) !! 1 then true else false) = true) >> 
  chk (fun _ => (if colls (s_nft s1) !! 0 then true else false) = true) >> 
  chk (fun _ => (if colls (s_nft s1) !! 1 then true else false) = true) >> 
  no (sg 1) (C_set_collection_offchaindata 1 [1]) (Nft_err N_NotTheCollectionOwner) >> fin))
  (start_with [(1, 1000); (2, 1000)]).
Proof. replay. Qed.

(** * traits *)
Example set_nft_state : (ok (sg 1) (C_create_nft [] 0 None false) >> 
  now_ (fun s1 => upd (fun s => s <| s_nft ::= fun n => n <| next_nft ::= N.succ |> |>) >> 
  flag ((next_nft (s_nft s1)) - 1) (fun _ => mkNftState true true true true true true false false false) >> 
  now_ (fun s2 => chk (fun _ => (if nfts (s_nft s2) !! ((next_nft (s_nft s1)) - 1) then true else false) = true) >> 
  chk (fun _ => (nstate (default dnft (nfts (s_nft s2) !! ((next_nft (s_nft s1)) - 1)))) = (mkNftState true true true true true true false false false)) >> fin)))
  (start_with [(1, 1000)]).
Proof. replay. Qed.
Example create_filled_collection : (upd (fun s => s <| s_nft ::= fun n => n <| colls ::= <[0 := mkColl 1 [] (replicate (N.to_nat 10) 0) None false]> |> |>) >> 
  now_ (fun s1 => chk (fun _ => (if colls (s_nft s1) !! 0 then true else false) = true) >> 
  chk (fun _ => (c_owner (default dcoll (colls (s_nft s1) !! 0))) = 1) >> 
  chk (fun _ => (nlen (c_nfts (default dcoll (colls (s_nft s1) !! 0)))) = 10) >> fin))
  (start_with [(1, 1000)]).
Proof. replay. Qed.
Example get_nft : (ok (sg 1) (C_create_nft [] 0 None false) >> 
  now_ (fun s1 => upd (fun s => s <| s_nft ::= fun n => n <| next_nft ::= N.succ |> |>) >> 
  now_ (fun s2 => chk (fun _ => (if nfts (s_nft s2) !! ((next_nft (s_nft s1)) - 1) then true else false) = true) >> 
  chk (fun _ => (owner (default dnft (nfts (s_nft s2) !! ((next_nft (s_nft s1)) - 1)))) = 1) >> 
  chk (fun _ => (nfts (s_nft s2) !! 999) = None) >> fin)))
  (start_with [(1, 1000)]).
Proof. replay. Qed.
Example set_nft : (ok (sg 1) (C_create_nft [] 0 None false) >> 
  now_ (fun s1 => upd (fun s => s <| s_nft ::= fun n => n <| next_nft ::= N.succ |> |>) >> 
  now_ (fun s2 => chk (fun _ => (if nfts (s_nft s2) !! ((next_nft (s_nft s1)) - 1) then true else false) = true) >> 
  edit ((next_nft (s_nft s1)) - 1) (fun _ => (default dnft (nfts (s_nft s2) !! ((next_nft (s_nft s1)) - 1))) <| owner := 2 |>) >> 
  now_ (fun s3 => chk (fun _ => (if nfts (s_nft s3) !! ((next_nft (s_nft s1)) - 1) then true else false) = true) >> 
  chk (fun _ => (owner (default dnft (nfts (s_nft s3) !! ((next_nft (s_nft s1)) - 1)))) = 2) >> fin))))
  (start_with [(1, 1000)]).
Proof. replay. Qed.

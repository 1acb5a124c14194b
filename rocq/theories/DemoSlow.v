(** The demo chain with one action per block in every pallet. *)
From Verif Require Export Demo.
Local Open Scope N_scope.

Definition slow : Config := {|
  ed := 1; fees_collector := Some 90; zero_lock_clears := false;
  nft_data_limit := 10; coll_data_limit := 10; coll_size_limit := 10; shards_number := 3;
  init_mint_fee := 10; init_secret_fee := 75; init_capsule_fee := 100;
  init_mkt_fee := 250; mkt_accounts_limit := 5; mkt_data_limit := 5; mkt_colls_limit := 5;
  auction_ed := 1; min_auction_duration := 10; max_auction_duration := 1000;
  max_auction_delay := 50; grace_period := 5; ending_period := 10; bidder_limit := 3;
  parallel_auctions := 10; auction_actions := 1; auction_pot := 100;
  rent_ed := 1; rent_accounts_limit := 3; rent_limit := 10; rent_actions := 1;
  availability_limit := 20; duration_limit := 100; rent_pot := 101;
  init_at_block_fee := 1; init_at_block_reset_fee := 2; init_on_consent_fee := 3;
  init_on_consent_at_block_fee := 4; max_block_duration := 100; consent_limit := 4;
  trans_limit := 10; trans_actions := 1;
  cluster_size := 3; uri_limit := 10; list_limit := 10; init_staking_amount := 20;
  bonding_duration := 10; tee_pot := 102; init_reward_pool := 1000; history_depth := 10;
  own_chain := 0; proposal_lifetime := 10; init_vote_threshold := 2; relayer_limit := 3;
  init_bridge_fee := 1; staking_pot := 103;
  external_ok := fun o => match o with OtherOrigin 1 => true | _ => false end;
  hook_order := [HookAuction; HookRent; HookTrans; HookTee]
|}.
Lemma slow_ok : @config_ok slow.
Proof.
  split; try done.
  repeat constructor; set_solver.
Qed.
Lemma slow_init_genesis : @genesis slow (@demo_init slow).
Proof.
  exists 1, (Some 20), rich, ∅. split; [done|]. split; [|split; [|done]].
  - apply map_Forall_to_list. apply (bool_decide_unpack _). vm_compute. exact I.
  - vm_compute. done.
Qed.
Definition run_slow (l : list action) : state := @demo slow l.
Lemma run_slow_reachable l : forallb action_okb l = true -> @reachable slow (run_slow l).
Proof.
  intros Hl. apply (@run_reachable slow); [|by apply actions_ok].
  apply (@reach_init slow), slow_init_genesis.
Qed.

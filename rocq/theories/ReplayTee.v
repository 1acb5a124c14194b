(** Unit tests of the tee pallet (tee/src/tests/extrinsics.rs, traits.rs), run against the model. *)
From Verif Require Import Replay.
Local Open Scope N_scope.

(** tee/src/tests/mock.rs *)
Local Instance mock : Config := {|
  ed := 1; fees_collector := None; zero_lock_clears := false; nft_data_limit := 10; coll_data_limit := 10;
  coll_size_limit := 10; shards_number := 5; init_mint_fee := 10; init_secret_fee := 75;
  init_capsule_fee := 100; init_mkt_fee := 0; mkt_accounts_limit := 0; mkt_data_limit := 0;
  mkt_colls_limit := 0; auction_ed := 1; min_auction_duration := 0; max_auction_duration := 0;
  max_auction_delay := 0; grace_period := 0; ending_period := 0; bidder_limit := 0; parallel_auctions := 0;
  auction_actions := 0; auction_pot := 100; rent_ed := 1; rent_accounts_limit := 0; rent_limit := 0;
  rent_actions := 0; availability_limit := 0; duration_limit := 0; rent_pot := 101; init_at_block_fee := 0;
  init_at_block_reset_fee := 0; init_on_consent_fee := 0; init_on_consent_at_block_fee := 0;
  max_block_duration := 0; consent_limit := 0; trans_limit := 0; trans_actions := 0; cluster_size := 2;
  uri_limit := 12; list_limit := 10; init_staking_amount := 20; bonding_duration := 10; tee_pot := 102;
  init_reward_pool := 2000; history_depth := 50; own_chain := 0; proposal_lifetime := 0;
  init_vote_threshold := 0; relayer_limit := 0; init_bridge_fee := 0; staking_pot := 103;
  external_ok := fun _ => false; hook_order := []
|}.

Definition start_with (l : list (N * N)) : state := init_state 1 None (list_to_map l) ∅.
(** [ExtBuilder] with tokens for the accounts the tests use. *)
Definition start : state := start_with [(ALICE, 1000); (BOB, 1000); (CHARLIE, 1000); (8, 1000)].
(** [start_active_era(1)]: pallet-staking is outside the model, some era is active. *)
Definition era : test -> test := upd (fun s => s <| s_era := Some 1 |>).
Definition tst : bytes := [116; 101; 115; 116].
Definition new_uri : bytes := [110; 101; 119; 95; 97; 112; 105; 95; 117; 114; 105].
Notation E e := (Tee_err e).
Definition reg (op addr : N) : test -> test := ok (sg op) (C_register_enclave addr tst).
Definition cluster : test -> test := ok Root (C_create_cluster ClPublic).
Definition assign (op slot : N) : test -> test := ok Root (C_assign_enclave op 0 slot).
(** Alice operates enclave CHARLIE in cluster 0. *)
Definition alice (k : test) : test := era >> reg ALICE CHARLIE >> cluster >> assign ALICE 0 >> k.
Definition update : test -> test := ok (sg ALICE) (C_update_enclave BOB new_uri).
Definition has {A} (f : tee_st -> option A) (b : bool) : test -> test := chk (fun s => (match f (s_tee s) with Some _ => true | None => false end) = b).
Definition first_of_0 (x : tee_st) : option (N * N) := clusters x !! 0 ≫= (fun c => head (cl_enclaves c)).

(** * register_enclave *)
Example register_enclave : (reg ALICE CHARLIE >> chk (fun s => regs (s_tee s) !! ALICE = Some (mkEnclave CHARLIE tst)) >> has (fun x => encs x !! ALICE) false >>
  has (fun x => addr_op x !! ALICE) false >> chk (fun s => ledgers (s_tee s) !! ALICE = Some (mkLedger ALICE 20 false 0)) >> last_ (Ev_Bonded ALICE 20) >> fin) start.
Proof. replay. Qed.
Example operator_and_enclave_are_the_same : (no (sg ALICE) (C_register_enclave ALICE tst) (E E_OperatorAndEnclaveAreSame) >> fin) start.
Proof. replay. Qed.
Example registration_already_exists : (reg ALICE CHARLIE >> no (sg ALICE) (C_register_enclave CHARLIE tst) (E E_RegistrationAlreadyExists) >> fin) start.
Proof. replay. Qed.
Example operator_already_exists : alice (no (sg ALICE) (C_register_enclave CHARLIE tst) (E E_OperatorAlreadyExists) >> fin) start.
Proof. replay. Qed.
Example enclave_address_already_exists : (era >> cluster >> reg ALICE CHARLIE >> reg BOB CHARLIE >> assign ALICE 0 >> no Root (C_assign_enclave BOB 0 0) (E E_EnclaveAddressAlreadyExists) >> fin) start.
Proof. replay. Qed.

(** * unregister_enclave *)
Example unregister_enclave : (reg ALICE CHARLIE >> ok (sg ALICE) C_unregister_enclave >> has (fun x => regs x !! ALICE) false >> last_ (Ev_Withdrawn ALICE 20) >> fin) start.
Proof. replay. Qed.
Example unregister_enclave_assigned : alice (ok (sg ALICE) C_unregister_enclave >> fin) start.
Proof. replay. Qed.
Example unregister_enclave_unassigned : (no (sg ALICE) C_unregister_enclave (E E_RegistrationNotFound) >> fin) start.
Proof. replay. Qed.

(** * update_enclave *)
Example update_enclave : alice (update >> chk (fun s => updates (s_tee s) !! ALICE = Some (mkEnclave BOB new_uri)) >> last_ (Ev_MovedForUpdate ALICE BOB new_uri) >> fin) start.
Proof. replay. Qed.
Example update_operator_and_enclave_are_same : (no (sg ALICE) (C_update_enclave ALICE new_uri) (E E_OperatorAndEnclaveAreSame) >> fin) start.
Proof. replay. Qed.
Example update_request_already_exists : alice (update >> no (sg ALICE) (C_update_enclave BOB new_uri) (E E_UpdateRequestAlreadyExists) >> fin) start.
Proof. replay. Qed.
Example update_prohibited_for_unassigned_enclave : (no (sg ALICE) (C_update_enclave BOB new_uri) (E E_UpdateProhibitedForUnassignedEnclave) >> fin) start.
Proof. replay. Qed.
Example update_enclave_address_already_exists : (era >> cluster >> reg ALICE CHARLIE >> reg 8 DAVE >> assign ALICE 0 >> assign 8 0 >> no (sg ALICE) (C_update_enclave DAVE tst) (E E_EnclaveAddressAlreadyExists) >> fin) start.
Proof. replay. Qed.

(** * cancel_update *)
Example cancel_update : alice (ok (sg ALICE) (C_update_enclave CHARLIE tst) >> ok (sg ALICE) C_cancel_update >> has (fun x => updates x !! ALICE) false >> last_ (Ev_UpdateRequestCancelled ALICE) >> fin) start.
Proof. replay. Qed.
Example update_request_not_found : (no (sg ALICE) C_cancel_update (E E_UpdateRequestNotFound) >> fin) start.
Proof. replay. Qed.

(** * assign_enclave *)
Example assign_enclave : alice (chk (fun s => encs (s_tee s) !! ALICE = Some (mkEnclave CHARLIE tst)) >> chk (fun s => enc_cluster (s_tee s) !! ALICE = Some 0) >> last_ (Ev_EnclaveAssigned ALICE 0) >> fin) start.
Proof. replay. Qed.
Example assign_bad_origin : (no (sg ALICE) (C_assign_enclave ALICE 0 0) BadOrigin >> fin) start.
Proof. replay. Qed.
Example assign_enclave_address_already_exists : (era >> reg ALICE CHARLIE >> reg BOB CHARLIE >> cluster >> assign ALICE 0 >> no Root (C_assign_enclave BOB 0 0) (E E_EnclaveAddressAlreadyExists) >> fin) start.
Proof. replay. Qed.
Example registration_not_found : (no Root (C_assign_enclave ALICE 0 0) (E E_RegistrationNotFound) >> fin) start.
Proof. replay. Qed.
Example assign_cluster_not_found : (reg ALICE CHARLIE >> no Root (C_assign_enclave ALICE 0 0) (E E_ClusterNotFound) >> fin) start.
Proof. replay. Qed.
Example cluster_is_full : (era >> reg ALICE 5 >> reg BOB 6 >> reg CHARLIE 7 >> cluster >> assign ALICE 0 >> assign BOB 1 >> no Root (C_assign_enclave CHARLIE 0 2) (E E_ClusterIsFull) >> fin) start.
Proof. replay. Qed.

(** * remove_registration *)
Example remove_registration : (reg ALICE CHARLIE >> has (fun x => regs x !! ALICE) true >> ok Root (C_remove_registration ALICE) >> has (fun x => regs x !! ALICE) false >> last_ (Ev_RegistrationRemoved ALICE) >> fin) start.
Proof. replay. Qed.
Example remove_registration_bad_origin : (no (sg ALICE) (C_remove_registration ALICE) BadOrigin >> fin) start.
Proof. replay. Qed.

(** * reject_update *)
Example reject_update : alice (update >> ok Root (C_reject_update ALICE) >> has (fun x => updates x !! ALICE) false >> last_ (Ev_UpdateRequestRemoved ALICE) >> fin) start.
Proof. replay. Qed.
Example reject_update_bad_origin : (no (sg ALICE) (C_reject_update ALICE) BadOrigin >> fin) start.
Proof. replay. Qed.
Example reject_update_with_invalid_operator : alice (update >> no Root (C_reject_update BOB) (E E_UpdateRequestNotFound) >> has (fun x => updates x !! ALICE) true >> last_ (Ev_MovedForUpdate ALICE BOB new_uri) >> fin) start.
Proof. replay. Qed.

(** * approve_enclave_unregistration *)
Example approve_enclave_unregistration : alice (has (fun x => addr_op x !! CHARLIE) true >> has (fun x => enc_cluster x !! ALICE) true >> has first_of_0 true >>
  update >> ok (sg ALICE) C_unregister_enclave >> has (fun x => updates x !! ALICE) true >> has (fun x => encs x !! ALICE) true >>
  ok Root (C_force_remove_enclave ALICE) >>
  has (fun x => encs x !! ALICE) false >> has (fun x => addr_op x !! CHARLIE) false >> has (fun x => enc_cluster x !! ALICE) false >>
  has (fun x => updates x !! ALICE) false >> has first_of_0 false >> last_ (Ev_EnclaveRemoved ALICE) >> fin) start.
Proof. replay. Qed.

(** * force_remove_enclave *)
Example force_remove_enclave : alice (has (fun x => addr_op x !! CHARLIE) true >> has (fun x => enc_cluster x !! ALICE) true >> has first_of_0 true >>
  update >> ok (sg ALICE) C_unregister_enclave >> has (fun x => updates x !! ALICE) true >> has (fun x => encs x !! ALICE) true >>
  ok Root (C_force_remove_enclave ALICE) >>
  has (fun x => encs x !! ALICE) false >> has (fun x => addr_op x !! CHARLIE) false >> has (fun x => enc_cluster x !! ALICE) false >>
  has (fun x => updates x !! ALICE) false >> has first_of_0 false >> last_ (Ev_EnclaveRemoved ALICE) >> fin) start.
Proof. replay. Qed.
Example force_remove_bad_origin : (no (sg ALICE) (C_force_remove_enclave ALICE) BadOrigin >> fin) start.
Proof. replay. Qed.
Example enclave_not_found : alice (ok Root (C_force_remove_enclave ALICE) >> no Root (C_force_remove_enclave ALICE) (E E_EnclaveNotFound) >> fin) start.
Proof. replay. Qed.
Example cluster_id_not_found : alice (upd (fun s => s <| s_tee ::= fun x => x <| enc_cluster ::= delete ALICE |> |>) >> no Root (C_force_remove_enclave ALICE) (E E_ClusterIdNotFound) >> fin) start.
Proof. replay. Qed.

(** * force_update_enclave *)
Example force_update_enclave : alice (update >> has (fun x => updates x !! ALICE) true >> ok Root (C_force_update_enclave ALICE (Some BOB) (Some new_uri)) >>
  chk (fun s => encs (s_tee s) !! ALICE = Some (mkEnclave BOB new_uri)) >> has (fun x => updates x !! ALICE) false >> last_ (Ev_EnclaveForceUpdated ALICE (Some BOB) (Some new_uri)) >> fin) start.
Proof. replay. Qed.
Example force_update_bad_origin : (no (sg ALICE) (C_force_update_enclave ALICE (Some BOB) (Some tst)) BadOrigin >> fin) start.
Proof. replay. Qed.
Example force_update_enclave_address_already_exists : (era >> cluster >> reg ALICE CHARLIE >> reg BOB 8 >> assign ALICE 0 >> assign BOB 1 >> no Root (C_force_update_enclave BOB (Some CHARLIE) (Some tst)) (E E_EnclaveAddressAlreadyExists) >> fin) start.
Proof. replay. Qed.
Example force_update_operator_and_enclave_are_same : alice (no Root (C_force_update_enclave ALICE (Some ALICE) (Some new_uri)) (E E_OperatorAndEnclaveAreSame) >> fin) start.
Proof. replay. Qed.
Example force_update_enclave_not_found : alice (no Root (C_force_update_enclave CHARLIE (Some BOB) (Some new_uri)) (E E_EnclaveNotFound) >> fin) start.
Proof. replay. Qed.

(** * create_cluster *)
Example create_cluster : (cluster >> chk (fun s => clusters (s_tee s) !! 0 = Some (mkCluster [] ClPublic)) >> last_ (Ev_ClusterAdded 0 ClPublic) >> fin) start.
Proof. replay. Qed.
Example create_cluster_bad_origin : (no (sg ALICE) (C_create_cluster ClPublic) BadOrigin >> fin) start.
Proof. replay. Qed.

(** * update_cluster *)
Example update_cluster : (upd (fun s => s <| s_tee ::= fun x => x <| clusters ::= <[0 := mkCluster [] ClPrivate]> |> |>) >> ok Root (C_update_cluster 0 ClPublic) >>
  chk (fun s => clusters (s_tee s) !! 0 = Some (mkCluster [] ClPublic)) >> last_ (Ev_ClusterUpdated 0 ClPublic) >> fin) start.
Proof. replay. Qed.
Example update_cluster_bad_origin : (no (sg ALICE) (C_update_cluster 0 ClPublic) BadOrigin >> fin) start.
Proof. replay. Qed.
Example update_cluster_not_found : (no Root (C_update_cluster 0 ClPublic) (E E_ClusterNotFound) >> fin) start.
Proof. replay. Qed.

(** * remove_cluster *)
Example remove_cluster : (cluster >> ok Root (C_remove_cluster 0) >> has (fun x => clusters x !! 0) false >> last_ (Ev_ClusterRemoved 0) >> fin) start.
Proof. replay. Qed.
Example remove_cluster_bad_origin : (no (sg ALICE) (C_remove_cluster 0) BadOrigin >> fin) start.
Proof. replay. Qed.
Example remove_cluster_not_found : (no Root (C_remove_cluster 0) (E E_ClusterNotFound) >> fin) start.
Proof. replay. Qed.
Example cluster_is_not_empty : alice (no Root (C_remove_cluster 0) (E E_ClusterIsNotEmpty) >> fin) start.
Proof. replay. Qed.

(** * traits *)
Example ensure_enclave_ : (era >> cluster >> reg ALICE 5 >> reg BOB 6 >> assign ALICE 0 >> assign BOB 1 >> chk (fun s => ensure_enclave (s_tee s) 6 = Some (0, BOB)) >> fin) start.
Proof. replay. Qed.
